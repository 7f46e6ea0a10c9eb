(* Specification: the curve edwards448 of RFC 8032 section 5.2, affine coordinates.
     x^2 + y^2 = 1 + d x^2 y^2,  d = -39081,
   its addition law (complete, because d is not a square), scalar multiples, base point,
   and the encoding of a point as 57 bytes (section 5.2.2). *)
From Coq Require Import ZArith List.
From Verif Require Import SpecField SpecScalar SpecBytes.
Import ListNotations.
Open Scope Z_scope.

Definition ecd : Fp := mkF (-39081).
Definition ept : Set := (Fp * Fp)%type.
Definition on_curve (P : ept) : Prop :=
  let (x, y) := P in
  fadd (fmul x x) (fmul y y) = fadd fone (fmul ecd (fmul (fmul x x) (fmul y y))).
Definition ezero : ept := (fzero, fone).
Definition eneg (P : ept) : ept := let (x, y) := P in (fopp x, y).
Definition eadd (P Q : ept) : ept :=
  let (x1, y1) := P in
  let (x2, y2) := Q in
  let e := fmul ecd (fmul (fmul x1 x2) (fmul y1 y2)) in
  (fdiv (fadd (fmul x1 y2) (fmul x2 y1)) (fadd fone e),
   fdiv (fsub (fmul y1 y2) (fmul x1 x2)) (fsub fone e)).
(* n P = P + (P + ... + 0) *)
Definition emul (n : Z) (P : ept) : ept :=
  match n with
  | Z0 => ezero
  | Zpos k => Pos.iter (eadd P) ezero k
  | Zneg k => eneg (Pos.iter (eadd P) ezero k)
  end.

(* RFC 8032 section 5.2: B *)
Definition ebase : ept :=
  (mkF 224580040295924300187604334099896036246789641632564134246125461686950415467406032909029192869357953282578032075146446173674602635247710,
   mkF 298819210078481492676017930443930673437544040154080242095928241372331506189835876003536878655418784733982303233503462500531545062832660).

(* RFC 8032 section 5.2.2: y as 56 bytes, then the low bit of x in the high bit of byte 57 *)
Definition eencode (P : ept) : list Z :=
  let (x, y) := P in le_bytes 56 (fval y) ++ [128 * (fval x mod 2)].
