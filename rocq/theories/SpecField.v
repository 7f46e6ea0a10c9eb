(* Specification: the field of integers modulo p = 2^448 - 2^224 - 1 (RFC 8032 section 5.2). *)
From Coq Require Import ZArith.
Open Scope Z_scope.

Definition p448 : Z := 2 ^ 448 - 2 ^ 224 - 1.

(* an element is its representative in 0 .. p-1 *)
Definition Fp : Set := { z : Z | (z mod p448 =? z) = true }.
Definition fval (x : Fp) : Z := proj1_sig x.
Lemma mkF_ok : forall z, ((z mod p448) mod p448 =? z mod p448) = true.
Proof. intro z. apply Z.eqb_eq. apply Z.mod_mod. discriminate. Qed.
Definition mkF (z : Z) : Fp := exist _ (z mod p448) (mkF_ok z).

Definition fzero : Fp := mkF 0.
Definition fone : Fp := mkF 1.
Definition fadd (x y : Fp) : Fp := mkF (fval x + fval y).
Definition fsub (x y : Fp) : Fp := mkF (fval x - fval y).
Definition fopp (x : Fp) : Fp := mkF (- fval x).
Definition fmul (x y : Fp) : Fp := mkF (fval x * fval y).
Fixpoint fpow (x : Fp) (e : positive) : Fp :=
  match e with
  | xH => x
  | xO e' => let t := fpow x e' in fmul t t
  | xI e' => let t := fpow x e' in fmul (fmul t t) x
  end.
(* x^(p-2): the inverse, and 0 for 0 *)
Definition finv (x : Fp) : Fp := fpow x (Z.to_pos (p448 - 2)).
Definition fdiv (x y : Fp) : Fp := fmul x (finv y).
