(* Specification: what the internal data of the crate stand for. *)
From Coq Require Import ZArith List Bool.
From Verif Require Import SpecField SpecScalar SpecCurve SpecEd448 SpecVerify Base ScalarModel Niels ExtendedPoint.
Import ListNotations.
Open Scope Z_scope.

(* value of a sequence of words, least significant first, w bits apart *)
Fixpoint words_val (w : Z) (l : list Z) : Z :=
  match l with [] => 0 | x :: t => x + 2 ^ w * words_val w t end.

(* value of words of alternately 24 and 32 bits *)
Fixpoint packed_val (l : list Z) : Z :=
  match l with a :: b :: t => a + 2 ^ 24 * b + 2 ^ 56 * packed_val t | _ => 0 end.

(* field elements: sixteen limbs 28 bits apart.  Limbs are not below 2^28: after a carry they are at
   most 2^28 + 2^10, after the addition of two such at most 2^29 + 2^11. *)
Definition limbs_upto (M : Z) (a : bn) : Prop := Forall (fun x => 0 <= x <= M) (limbs a).
Definition carried (a : bn) : Prop := limbs_upto (2 ^ 28 + 2 ^ 10) a.
Definition summed (a : bn) : Prop := limbs_upto (2 ^ 29 + 2 ^ 11) a.
Definition fe (a : bn) : Fp := mkF (words_val 28 (limbs a)).
(* the operation returns (does not overflow) a carried limb vector with the value v *)
Definition returns_fe (o : option bn) (v : Fp) : Prop := exists r, o = Some r /\ carried r /\ fe r = v.
(* a word of 32 ones or zero, for true and false *)
Definition mask32 (b : bool) : Z := if b then 2 ^ 32 - 1 else 0.

(* scalars: fourteen words of 32 bits, below q *)
Definition sc (s : scalar) : Z := words_val 32 s.
Definition words32 (s : scalar) : Prop := length s = 14%nat /\ Forall (fun x => 0 <= x < 2 ^ 32) s.
Definition reduced (s : scalar) : Prop := words32 s /\ sc s < q448.
Definition returns_sc (o : option scalar) (v : Z) : Prop := exists r, o = Some r /\ reduced r /\ sc r = v mod q448.

(* points: (X : Y : Z : T) stands for Q when (X/Z, Y/Z) is the image of Q under the isogeny of degree
   4, or its opposite in both coordinates, and T = X Y / Z *)
Definition represents (p : point) (Q : ept) : Prop :=
  carried (px p) /\ carried (py p) /\ carried (pz p) /\ carried (ExtendedPoint.pt p) /\ on_curve Q /\
  fe (pz p) <> fzero /\ fmul (fe (ExtendedPoint.pt p)) (fe (pz p)) = fmul (fe (px p)) (fe (py p)) /\
  exists e, fmul e e = fone /\ fe (px p) = fmul (fmul e (fst (iso4 Q))) (fe (pz p)) /\
    fe (py p) = fmul (fmul e (snd (iso4 Q))) (fe (pz p)).
(* the same without T, which is not kept up to date before a doubling *)
Definition represents_xyz (p : point) (Q : ept) : Prop :=
  carried (px p) /\ carried (py p) /\ carried (pz p) /\ carried (ExtendedPoint.pt p) /\ on_curve Q /\
  fe (pz p) <> fzero /\
  exists e, fmul e e = fone /\ fe (px p) = fmul (fmul e (fst (iso4 Q))) (fe (pz p)) /\
    fe (py p) = fmul (fmul e (snd (iso4 Q))) (fe (pz p)).
Definition carried_point (p : point) : Prop := carried (px p) /\ carried (py p) /\ carried (pz p) /\ carried (ExtendedPoint.pt p).
(* X Y = Z T and Y^2 - X^2 = Z^2 + (d - 1) T^2: the curve that the crate computes on *)
Definition on_twisted (p : point) : Prop :=
  let x := fe (px p) in let y := fe (py p) in let z := fe (pz p) in let t := fe (ExtendedPoint.pt p) in
  z <> fzero /\ fmul x y = fmul z t /\ fsub (fmul y y) (fmul x x) = fadd (fmul z z) (fmul (mkF (-39082)) (fmul t t)).
(* table entries: ((Y - X)/2, (Y + X)/2, d' X Y) with d' = d - 1, up to the sign of the first two; with
   a denominator Z for projective entries *)
Definition stands (n : niels) (z : Fp) (Q : ept) : Prop :=
  carried (na n) /\ carried (nb n) /\ carried (nc n) /\ on_curve Q /\ z <> fzero /\
  exists e, fmul e e = fone /\
    fmul (mkF 2) (fe (na n)) = fmul (fmul e (fsub (snd (iso4 Q)) (fst (iso4 Q)))) z /\
    fmul (mkF 2) (fe (nb n)) = fmul (fmul e (fadd (snd (iso4 Q)) (fst (iso4 Q)))) z /\
    fe (nc n) = fmul (fmul (fmul (mkF (-39082)) (fst (iso4 Q))) (snd (iso4 Q))) z.
Definition entry (n : niels) (Q : ept) : Prop := stands n fone Q.
Definition projective_entry (m : pniels) (Q : ept) : Prop := carried (pnz m) /\ stands (pn m) (fe (pnz m)) Q.

(* signed digit expansions: most significant digit first *)
Fixpoint expansion (ds : list smvt) : Z :=
  match ds with [] => 0 | d :: t => addend d * 2 ^ power d + expansion t end.
Fixpoint decreasing (g : Z) (ds : list smvt) : Prop :=
  match ds with
  | [] => True
  | d :: t => 0 <= power d /\ match t with [] => True | d' :: _ => power d' + g <= power d end /\ decreasing g t
  end.

(* what the final comparison of the verifier looks at: Y1 X2 - X1 Y2, zero when X1/Y1 = X2/Y2 *)
Definition cross (p1 p2 : point) : Fp :=
  fsub (fmul (fe (py p1)) (fe (px p2))) (fmul (fe (px p1)) (fe (py p2))).
(* the final comparison errs: it finds equal although the difference is not zero, but a multiple of 2^420 *)
Definition false_positive (xof : list Z -> nat -> list Z) (pub sig message : list Z) : Prop :=
  exists r4 pk j, compared xof pub sig message r4 pk /\ 0 < j < 2 ^ 28 /\ fval (cross r4 pk) = j * 2 ^ 420.
