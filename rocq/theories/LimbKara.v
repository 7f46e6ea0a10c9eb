(* Exact column form of karatsuba_mul and karatsuba_square.
   Generated by a script that follows the assignments of the model one by one. *)
From Coq Require Import ZArith List Bool Lia.
From Verif Require Import Base Arith Karatsuba32 KaratsubaSquare32.
Open Scope Z_scope.

(* limb bounds: tight = result of a multiplication or a weak reduction,
   loose = sum of two tight values *)
Definition TIGHT : Z := 2 ^ 28 + 2 ^ 10.
Definition LOOSE : Z := 2 ^ 29 + 2 ^ 11.

Definition bn_le (M : Z) (a : bn) : Prop :=
  let '(BN a0 a1 a2 a3 a4 a5 a6 a7 a8 a9 a10 a11 a12 a13 a14 a15) := a in
  0 <= a0 <= M /\
  0 <= a1 <= M /\
  0 <= a2 <= M /\
  0 <= a3 <= M /\
  0 <= a4 <= M /\
  0 <= a5 <= M /\
  0 <= a6 <= M /\
  0 <= a7 <= M /\
  0 <= a8 <= M /\
  0 <= a9 <= M /\
  0 <= a10 <= M /\
  0 <= a11 <= M /\
  0 <= a12 <= M /\
  0 <= a13 <= M /\
  0 <= a14 <= M /\
  0 <= a15 <= M.

Definition col0_0 (a0 a1 a2 a3 a4 a5 a6 a7 a8 a9 a10 a11 a12 a13 a14 a15 b0 b1 b2 b3 b4 b5 b6 b7 b8 b9 b10 b11 b12 b13 b14 b15 : Z) : Z :=
  a0*b0 + a8*b8 + a1*b15 + a9*b7 + a9*b15 + a2*b14 + a10*b6 + a10*b14 + a3*b13 + a11*b5 + a11*b13 + a4*b12 + a12*b4 + a12*b12 + a5*b11 + a13*b3 + a13*b11 + a6*b10 + a14*b2 + a14*b10 + a7*b9 + a15*b1 + a15*b9.
Lemma col0_0_eq : forall a0 a1 a2 a3 a4 a5 a6 a7 a8 a9 a10 a11 a12 a13 a14 a15 b0 b1 b2 b3 b4 b5 b6 b7 b8 b9 b10 b11 b12 b13 b14 b15 : Z, col0_0 a0 a1 a2 a3 a4 a5 a6 a7 a8 a9 a10 a11 a12 a13 a14 a15 b0 b1 b2 b3 b4 b5 b6 b7 b8 b9 b10 b11 b12 b13 b14 b15 =
  a0*b0 + a8*b8 + a1*b15 + a9*b7 + a9*b15 + a2*b14 + a10*b6 + a10*b14 + a3*b13 + a11*b5 + a11*b13 + a4*b12 + a12*b4 + a12*b12 + a5*b11 + a13*b3 + a13*b11 + a6*b10 + a14*b2 + a14*b10 + a7*b9 + a15*b1 + a15*b9.
Proof. reflexivity. Qed.
Definition col0_1 (a0 a1 a2 a3 a4 a5 a6 a7 a8 a9 a10 a11 a12 a13 a14 a15 b0 b1 b2 b3 b4 b5 b6 b7 b8 b9 b10 b11 b12 b13 b14 b15 : Z) : Z :=
  a0*b1 + a8*b9 + a1*b0 + a9*b8 + a2*b15 + a10*b7 + a10*b15 + a3*b14 + a11*b6 + a11*b14 + a4*b13 + a12*b5 + a12*b13 + a5*b12 + a13*b4 + a13*b12 + a6*b11 + a14*b3 + a14*b11 + a7*b10 + a15*b2 + a15*b10.
Lemma col0_1_eq : forall a0 a1 a2 a3 a4 a5 a6 a7 a8 a9 a10 a11 a12 a13 a14 a15 b0 b1 b2 b3 b4 b5 b6 b7 b8 b9 b10 b11 b12 b13 b14 b15 : Z, col0_1 a0 a1 a2 a3 a4 a5 a6 a7 a8 a9 a10 a11 a12 a13 a14 a15 b0 b1 b2 b3 b4 b5 b6 b7 b8 b9 b10 b11 b12 b13 b14 b15 =
  a0*b1 + a8*b9 + a1*b0 + a9*b8 + a2*b15 + a10*b7 + a10*b15 + a3*b14 + a11*b6 + a11*b14 + a4*b13 + a12*b5 + a12*b13 + a5*b12 + a13*b4 + a13*b12 + a6*b11 + a14*b3 + a14*b11 + a7*b10 + a15*b2 + a15*b10.
Proof. reflexivity. Qed.
Definition col0_2 (a0 a1 a2 a3 a4 a5 a6 a7 a8 a9 a10 a11 a12 a13 a14 a15 b0 b1 b2 b3 b4 b5 b6 b7 b8 b9 b10 b11 b12 b13 b14 b15 : Z) : Z :=
  a0*b2 + a8*b10 + a1*b1 + a9*b9 + a2*b0 + a10*b8 + a3*b15 + a11*b7 + a11*b15 + a4*b14 + a12*b6 + a12*b14 + a5*b13 + a13*b5 + a13*b13 + a6*b12 + a14*b4 + a14*b12 + a7*b11 + a15*b3 + a15*b11.
Lemma col0_2_eq : forall a0 a1 a2 a3 a4 a5 a6 a7 a8 a9 a10 a11 a12 a13 a14 a15 b0 b1 b2 b3 b4 b5 b6 b7 b8 b9 b10 b11 b12 b13 b14 b15 : Z, col0_2 a0 a1 a2 a3 a4 a5 a6 a7 a8 a9 a10 a11 a12 a13 a14 a15 b0 b1 b2 b3 b4 b5 b6 b7 b8 b9 b10 b11 b12 b13 b14 b15 =
  a0*b2 + a8*b10 + a1*b1 + a9*b9 + a2*b0 + a10*b8 + a3*b15 + a11*b7 + a11*b15 + a4*b14 + a12*b6 + a12*b14 + a5*b13 + a13*b5 + a13*b13 + a6*b12 + a14*b4 + a14*b12 + a7*b11 + a15*b3 + a15*b11.
Proof. reflexivity. Qed.
Definition col0_3 (a0 a1 a2 a3 a4 a5 a6 a7 a8 a9 a10 a11 a12 a13 a14 a15 b0 b1 b2 b3 b4 b5 b6 b7 b8 b9 b10 b11 b12 b13 b14 b15 : Z) : Z :=
  a0*b3 + a8*b11 + a1*b2 + a9*b10 + a2*b1 + a10*b9 + a3*b0 + a11*b8 + a4*b15 + a12*b7 + a12*b15 + a5*b14 + a13*b6 + a13*b14 + a6*b13 + a14*b5 + a14*b13 + a7*b12 + a15*b4 + a15*b12.
Lemma col0_3_eq : forall a0 a1 a2 a3 a4 a5 a6 a7 a8 a9 a10 a11 a12 a13 a14 a15 b0 b1 b2 b3 b4 b5 b6 b7 b8 b9 b10 b11 b12 b13 b14 b15 : Z, col0_3 a0 a1 a2 a3 a4 a5 a6 a7 a8 a9 a10 a11 a12 a13 a14 a15 b0 b1 b2 b3 b4 b5 b6 b7 b8 b9 b10 b11 b12 b13 b14 b15 =
  a0*b3 + a8*b11 + a1*b2 + a9*b10 + a2*b1 + a10*b9 + a3*b0 + a11*b8 + a4*b15 + a12*b7 + a12*b15 + a5*b14 + a13*b6 + a13*b14 + a6*b13 + a14*b5 + a14*b13 + a7*b12 + a15*b4 + a15*b12.
Proof. reflexivity. Qed.
Definition col0_4 (a0 a1 a2 a3 a4 a5 a6 a7 a8 a9 a10 a11 a12 a13 a14 a15 b0 b1 b2 b3 b4 b5 b6 b7 b8 b9 b10 b11 b12 b13 b14 b15 : Z) : Z :=
  a0*b4 + a8*b12 + a1*b3 + a9*b11 + a2*b2 + a10*b10 + a3*b1 + a11*b9 + a4*b0 + a12*b8 + a5*b15 + a13*b7 + a13*b15 + a6*b14 + a14*b6 + a14*b14 + a7*b13 + a15*b5 + a15*b13.
Lemma col0_4_eq : forall a0 a1 a2 a3 a4 a5 a6 a7 a8 a9 a10 a11 a12 a13 a14 a15 b0 b1 b2 b3 b4 b5 b6 b7 b8 b9 b10 b11 b12 b13 b14 b15 : Z, col0_4 a0 a1 a2 a3 a4 a5 a6 a7 a8 a9 a10 a11 a12 a13 a14 a15 b0 b1 b2 b3 b4 b5 b6 b7 b8 b9 b10 b11 b12 b13 b14 b15 =
  a0*b4 + a8*b12 + a1*b3 + a9*b11 + a2*b2 + a10*b10 + a3*b1 + a11*b9 + a4*b0 + a12*b8 + a5*b15 + a13*b7 + a13*b15 + a6*b14 + a14*b6 + a14*b14 + a7*b13 + a15*b5 + a15*b13.
Proof. reflexivity. Qed.
Definition col0_5 (a0 a1 a2 a3 a4 a5 a6 a7 a8 a9 a10 a11 a12 a13 a14 a15 b0 b1 b2 b3 b4 b5 b6 b7 b8 b9 b10 b11 b12 b13 b14 b15 : Z) : Z :=
  a0*b5 + a8*b13 + a1*b4 + a9*b12 + a2*b3 + a10*b11 + a3*b2 + a11*b10 + a4*b1 + a12*b9 + a5*b0 + a13*b8 + a6*b15 + a14*b7 + a14*b15 + a7*b14 + a15*b6 + a15*b14.
Lemma col0_5_eq : forall a0 a1 a2 a3 a4 a5 a6 a7 a8 a9 a10 a11 a12 a13 a14 a15 b0 b1 b2 b3 b4 b5 b6 b7 b8 b9 b10 b11 b12 b13 b14 b15 : Z, col0_5 a0 a1 a2 a3 a4 a5 a6 a7 a8 a9 a10 a11 a12 a13 a14 a15 b0 b1 b2 b3 b4 b5 b6 b7 b8 b9 b10 b11 b12 b13 b14 b15 =
  a0*b5 + a8*b13 + a1*b4 + a9*b12 + a2*b3 + a10*b11 + a3*b2 + a11*b10 + a4*b1 + a12*b9 + a5*b0 + a13*b8 + a6*b15 + a14*b7 + a14*b15 + a7*b14 + a15*b6 + a15*b14.
Proof. reflexivity. Qed.
Definition col0_6 (a0 a1 a2 a3 a4 a5 a6 a7 a8 a9 a10 a11 a12 a13 a14 a15 b0 b1 b2 b3 b4 b5 b6 b7 b8 b9 b10 b11 b12 b13 b14 b15 : Z) : Z :=
  a0*b6 + a8*b14 + a1*b5 + a9*b13 + a2*b4 + a10*b12 + a3*b3 + a11*b11 + a4*b2 + a12*b10 + a5*b1 + a13*b9 + a6*b0 + a14*b8 + a7*b15 + a15*b7 + a15*b15.
Lemma col0_6_eq : forall a0 a1 a2 a3 a4 a5 a6 a7 a8 a9 a10 a11 a12 a13 a14 a15 b0 b1 b2 b3 b4 b5 b6 b7 b8 b9 b10 b11 b12 b13 b14 b15 : Z, col0_6 a0 a1 a2 a3 a4 a5 a6 a7 a8 a9 a10 a11 a12 a13 a14 a15 b0 b1 b2 b3 b4 b5 b6 b7 b8 b9 b10 b11 b12 b13 b14 b15 =
  a0*b6 + a8*b14 + a1*b5 + a9*b13 + a2*b4 + a10*b12 + a3*b3 + a11*b11 + a4*b2 + a12*b10 + a5*b1 + a13*b9 + a6*b0 + a14*b8 + a7*b15 + a15*b7 + a15*b15.
Proof. reflexivity. Qed.
Definition col0_7 (a0 a1 a2 a3 a4 a5 a6 a7 a8 a9 a10 a11 a12 a13 a14 a15 b0 b1 b2 b3 b4 b5 b6 b7 b8 b9 b10 b11 b12 b13 b14 b15 : Z) : Z :=
  a0*b7 + a8*b15 + a1*b6 + a9*b14 + a2*b5 + a10*b13 + a3*b4 + a11*b12 + a4*b3 + a12*b11 + a5*b2 + a13*b10 + a6*b1 + a14*b9 + a7*b0 + a15*b8.
Lemma col0_7_eq : forall a0 a1 a2 a3 a4 a5 a6 a7 a8 a9 a10 a11 a12 a13 a14 a15 b0 b1 b2 b3 b4 b5 b6 b7 b8 b9 b10 b11 b12 b13 b14 b15 : Z, col0_7 a0 a1 a2 a3 a4 a5 a6 a7 a8 a9 a10 a11 a12 a13 a14 a15 b0 b1 b2 b3 b4 b5 b6 b7 b8 b9 b10 b11 b12 b13 b14 b15 =
  a0*b7 + a8*b15 + a1*b6 + a9*b14 + a2*b5 + a10*b13 + a3*b4 + a11*b12 + a4*b3 + a12*b11 + a5*b2 + a13*b10 + a6*b1 + a14*b9 + a7*b0 + a15*b8.
Proof. reflexivity. Qed.
Definition col1_0 (a0 a1 a2 a3 a4 a5 a6 a7 a8 a9 a10 a11 a12 a13 a14 a15 b0 b1 b2 b3 b4 b5 b6 b7 b8 b9 b10 b11 b12 b13 b14 b15 : Z) : Z :=
  a0*b8 + a8*b0 + a8*b8 + a1*b7 + a9*b15 + a1*b15 + a9*b7 + a9*b15 + a2*b6 + a10*b14 + a2*b14 + a10*b6 + a10*b14 + a3*b5 + a11*b13 + a3*b13 + a11*b5 + a11*b13 + a4*b4 + a12*b12 + a4*b12 + a12*b4 + a12*b12 + a5*b3 + a13*b11 + a5*b11 + a13*b3 + a13*b11 + a6*b2 + a14*b10 + a6*b10 + a14*b2 + a14*b10 + a7*b1 + a15*b9 + a7*b9 + a15*b1 + a15*b9.
Lemma col1_0_eq : forall a0 a1 a2 a3 a4 a5 a6 a7 a8 a9 a10 a11 a12 a13 a14 a15 b0 b1 b2 b3 b4 b5 b6 b7 b8 b9 b10 b11 b12 b13 b14 b15 : Z, col1_0 a0 a1 a2 a3 a4 a5 a6 a7 a8 a9 a10 a11 a12 a13 a14 a15 b0 b1 b2 b3 b4 b5 b6 b7 b8 b9 b10 b11 b12 b13 b14 b15 =
  a0*b8 + a8*b0 + a8*b8 + a1*b7 + a9*b15 + a1*b15 + a9*b7 + a9*b15 + a2*b6 + a10*b14 + a2*b14 + a10*b6 + a10*b14 + a3*b5 + a11*b13 + a3*b13 + a11*b5 + a11*b13 + a4*b4 + a12*b12 + a4*b12 + a12*b4 + a12*b12 + a5*b3 + a13*b11 + a5*b11 + a13*b3 + a13*b11 + a6*b2 + a14*b10 + a6*b10 + a14*b2 + a14*b10 + a7*b1 + a15*b9 + a7*b9 + a15*b1 + a15*b9.
Proof. reflexivity. Qed.
Definition col1_1 (a0 a1 a2 a3 a4 a5 a6 a7 a8 a9 a10 a11 a12 a13 a14 a15 b0 b1 b2 b3 b4 b5 b6 b7 b8 b9 b10 b11 b12 b13 b14 b15 : Z) : Z :=
  a0*b9 + a8*b1 + a8*b9 + a1*b8 + a9*b0 + a9*b8 + a2*b7 + a10*b15 + a2*b15 + a10*b7 + a10*b15 + a3*b6 + a11*b14 + a3*b14 + a11*b6 + a11*b14 + a4*b5 + a12*b13 + a4*b13 + a12*b5 + a12*b13 + a5*b4 + a13*b12 + a5*b12 + a13*b4 + a13*b12 + a6*b3 + a14*b11 + a6*b11 + a14*b3 + a14*b11 + a7*b2 + a15*b10 + a7*b10 + a15*b2 + a15*b10.
Lemma col1_1_eq : forall a0 a1 a2 a3 a4 a5 a6 a7 a8 a9 a10 a11 a12 a13 a14 a15 b0 b1 b2 b3 b4 b5 b6 b7 b8 b9 b10 b11 b12 b13 b14 b15 : Z, col1_1 a0 a1 a2 a3 a4 a5 a6 a7 a8 a9 a10 a11 a12 a13 a14 a15 b0 b1 b2 b3 b4 b5 b6 b7 b8 b9 b10 b11 b12 b13 b14 b15 =
  a0*b9 + a8*b1 + a8*b9 + a1*b8 + a9*b0 + a9*b8 + a2*b7 + a10*b15 + a2*b15 + a10*b7 + a10*b15 + a3*b6 + a11*b14 + a3*b14 + a11*b6 + a11*b14 + a4*b5 + a12*b13 + a4*b13 + a12*b5 + a12*b13 + a5*b4 + a13*b12 + a5*b12 + a13*b4 + a13*b12 + a6*b3 + a14*b11 + a6*b11 + a14*b3 + a14*b11 + a7*b2 + a15*b10 + a7*b10 + a15*b2 + a15*b10.
Proof. reflexivity. Qed.
Definition col1_2 (a0 a1 a2 a3 a4 a5 a6 a7 a8 a9 a10 a11 a12 a13 a14 a15 b0 b1 b2 b3 b4 b5 b6 b7 b8 b9 b10 b11 b12 b13 b14 b15 : Z) : Z :=
  a0*b10 + a8*b2 + a8*b10 + a1*b9 + a9*b1 + a9*b9 + a2*b8 + a10*b0 + a10*b8 + a3*b7 + a11*b15 + a3*b15 + a11*b7 + a11*b15 + a4*b6 + a12*b14 + a4*b14 + a12*b6 + a12*b14 + a5*b5 + a13*b13 + a5*b13 + a13*b5 + a13*b13 + a6*b4 + a14*b12 + a6*b12 + a14*b4 + a14*b12 + a7*b3 + a15*b11 + a7*b11 + a15*b3 + a15*b11.
Lemma col1_2_eq : forall a0 a1 a2 a3 a4 a5 a6 a7 a8 a9 a10 a11 a12 a13 a14 a15 b0 b1 b2 b3 b4 b5 b6 b7 b8 b9 b10 b11 b12 b13 b14 b15 : Z, col1_2 a0 a1 a2 a3 a4 a5 a6 a7 a8 a9 a10 a11 a12 a13 a14 a15 b0 b1 b2 b3 b4 b5 b6 b7 b8 b9 b10 b11 b12 b13 b14 b15 =
  a0*b10 + a8*b2 + a8*b10 + a1*b9 + a9*b1 + a9*b9 + a2*b8 + a10*b0 + a10*b8 + a3*b7 + a11*b15 + a3*b15 + a11*b7 + a11*b15 + a4*b6 + a12*b14 + a4*b14 + a12*b6 + a12*b14 + a5*b5 + a13*b13 + a5*b13 + a13*b5 + a13*b13 + a6*b4 + a14*b12 + a6*b12 + a14*b4 + a14*b12 + a7*b3 + a15*b11 + a7*b11 + a15*b3 + a15*b11.
Proof. reflexivity. Qed.
Definition col1_3 (a0 a1 a2 a3 a4 a5 a6 a7 a8 a9 a10 a11 a12 a13 a14 a15 b0 b1 b2 b3 b4 b5 b6 b7 b8 b9 b10 b11 b12 b13 b14 b15 : Z) : Z :=
  a0*b11 + a8*b3 + a8*b11 + a1*b10 + a9*b2 + a9*b10 + a2*b9 + a10*b1 + a10*b9 + a3*b8 + a11*b0 + a11*b8 + a4*b7 + a12*b15 + a4*b15 + a12*b7 + a12*b15 + a5*b6 + a13*b14 + a5*b14 + a13*b6 + a13*b14 + a6*b5 + a14*b13 + a6*b13 + a14*b5 + a14*b13 + a7*b4 + a15*b12 + a7*b12 + a15*b4 + a15*b12.
Lemma col1_3_eq : forall a0 a1 a2 a3 a4 a5 a6 a7 a8 a9 a10 a11 a12 a13 a14 a15 b0 b1 b2 b3 b4 b5 b6 b7 b8 b9 b10 b11 b12 b13 b14 b15 : Z, col1_3 a0 a1 a2 a3 a4 a5 a6 a7 a8 a9 a10 a11 a12 a13 a14 a15 b0 b1 b2 b3 b4 b5 b6 b7 b8 b9 b10 b11 b12 b13 b14 b15 =
  a0*b11 + a8*b3 + a8*b11 + a1*b10 + a9*b2 + a9*b10 + a2*b9 + a10*b1 + a10*b9 + a3*b8 + a11*b0 + a11*b8 + a4*b7 + a12*b15 + a4*b15 + a12*b7 + a12*b15 + a5*b6 + a13*b14 + a5*b14 + a13*b6 + a13*b14 + a6*b5 + a14*b13 + a6*b13 + a14*b5 + a14*b13 + a7*b4 + a15*b12 + a7*b12 + a15*b4 + a15*b12.
Proof. reflexivity. Qed.
Definition col1_4 (a0 a1 a2 a3 a4 a5 a6 a7 a8 a9 a10 a11 a12 a13 a14 a15 b0 b1 b2 b3 b4 b5 b6 b7 b8 b9 b10 b11 b12 b13 b14 b15 : Z) : Z :=
  a0*b12 + a8*b4 + a8*b12 + a1*b11 + a9*b3 + a9*b11 + a2*b10 + a10*b2 + a10*b10 + a3*b9 + a11*b1 + a11*b9 + a4*b8 + a12*b0 + a12*b8 + a5*b7 + a13*b15 + a5*b15 + a13*b7 + a13*b15 + a6*b6 + a14*b14 + a6*b14 + a14*b6 + a14*b14 + a7*b5 + a15*b13 + a7*b13 + a15*b5 + a15*b13.
Lemma col1_4_eq : forall a0 a1 a2 a3 a4 a5 a6 a7 a8 a9 a10 a11 a12 a13 a14 a15 b0 b1 b2 b3 b4 b5 b6 b7 b8 b9 b10 b11 b12 b13 b14 b15 : Z, col1_4 a0 a1 a2 a3 a4 a5 a6 a7 a8 a9 a10 a11 a12 a13 a14 a15 b0 b1 b2 b3 b4 b5 b6 b7 b8 b9 b10 b11 b12 b13 b14 b15 =
  a0*b12 + a8*b4 + a8*b12 + a1*b11 + a9*b3 + a9*b11 + a2*b10 + a10*b2 + a10*b10 + a3*b9 + a11*b1 + a11*b9 + a4*b8 + a12*b0 + a12*b8 + a5*b7 + a13*b15 + a5*b15 + a13*b7 + a13*b15 + a6*b6 + a14*b14 + a6*b14 + a14*b6 + a14*b14 + a7*b5 + a15*b13 + a7*b13 + a15*b5 + a15*b13.
Proof. reflexivity. Qed.
Definition col1_5 (a0 a1 a2 a3 a4 a5 a6 a7 a8 a9 a10 a11 a12 a13 a14 a15 b0 b1 b2 b3 b4 b5 b6 b7 b8 b9 b10 b11 b12 b13 b14 b15 : Z) : Z :=
  a0*b13 + a8*b5 + a8*b13 + a1*b12 + a9*b4 + a9*b12 + a2*b11 + a10*b3 + a10*b11 + a3*b10 + a11*b2 + a11*b10 + a4*b9 + a12*b1 + a12*b9 + a5*b8 + a13*b0 + a13*b8 + a6*b7 + a14*b15 + a6*b15 + a14*b7 + a14*b15 + a7*b6 + a15*b14 + a7*b14 + a15*b6 + a15*b14.
Lemma col1_5_eq : forall a0 a1 a2 a3 a4 a5 a6 a7 a8 a9 a10 a11 a12 a13 a14 a15 b0 b1 b2 b3 b4 b5 b6 b7 b8 b9 b10 b11 b12 b13 b14 b15 : Z, col1_5 a0 a1 a2 a3 a4 a5 a6 a7 a8 a9 a10 a11 a12 a13 a14 a15 b0 b1 b2 b3 b4 b5 b6 b7 b8 b9 b10 b11 b12 b13 b14 b15 =
  a0*b13 + a8*b5 + a8*b13 + a1*b12 + a9*b4 + a9*b12 + a2*b11 + a10*b3 + a10*b11 + a3*b10 + a11*b2 + a11*b10 + a4*b9 + a12*b1 + a12*b9 + a5*b8 + a13*b0 + a13*b8 + a6*b7 + a14*b15 + a6*b15 + a14*b7 + a14*b15 + a7*b6 + a15*b14 + a7*b14 + a15*b6 + a15*b14.
Proof. reflexivity. Qed.
Definition col1_6 (a0 a1 a2 a3 a4 a5 a6 a7 a8 a9 a10 a11 a12 a13 a14 a15 b0 b1 b2 b3 b4 b5 b6 b7 b8 b9 b10 b11 b12 b13 b14 b15 : Z) : Z :=
  a0*b14 + a8*b6 + a8*b14 + a1*b13 + a9*b5 + a9*b13 + a2*b12 + a10*b4 + a10*b12 + a3*b11 + a11*b3 + a11*b11 + a4*b10 + a12*b2 + a12*b10 + a5*b9 + a13*b1 + a13*b9 + a6*b8 + a14*b0 + a14*b8 + a7*b7 + a15*b15 + a7*b15 + a15*b7 + a15*b15.
Lemma col1_6_eq : forall a0 a1 a2 a3 a4 a5 a6 a7 a8 a9 a10 a11 a12 a13 a14 a15 b0 b1 b2 b3 b4 b5 b6 b7 b8 b9 b10 b11 b12 b13 b14 b15 : Z, col1_6 a0 a1 a2 a3 a4 a5 a6 a7 a8 a9 a10 a11 a12 a13 a14 a15 b0 b1 b2 b3 b4 b5 b6 b7 b8 b9 b10 b11 b12 b13 b14 b15 =
  a0*b14 + a8*b6 + a8*b14 + a1*b13 + a9*b5 + a9*b13 + a2*b12 + a10*b4 + a10*b12 + a3*b11 + a11*b3 + a11*b11 + a4*b10 + a12*b2 + a12*b10 + a5*b9 + a13*b1 + a13*b9 + a6*b8 + a14*b0 + a14*b8 + a7*b7 + a15*b15 + a7*b15 + a15*b7 + a15*b15.
Proof. reflexivity. Qed.
Definition col1_7 (a0 a1 a2 a3 a4 a5 a6 a7 a8 a9 a10 a11 a12 a13 a14 a15 b0 b1 b2 b3 b4 b5 b6 b7 b8 b9 b10 b11 b12 b13 b14 b15 : Z) : Z :=
  a0*b15 + a8*b7 + a8*b15 + a1*b14 + a9*b6 + a9*b14 + a2*b13 + a10*b5 + a10*b13 + a3*b12 + a11*b4 + a11*b12 + a4*b11 + a12*b3 + a12*b11 + a5*b10 + a13*b2 + a13*b10 + a6*b9 + a14*b1 + a14*b9 + a7*b8 + a15*b0 + a15*b8.
Lemma col1_7_eq : forall a0 a1 a2 a3 a4 a5 a6 a7 a8 a9 a10 a11 a12 a13 a14 a15 b0 b1 b2 b3 b4 b5 b6 b7 b8 b9 b10 b11 b12 b13 b14 b15 : Z, col1_7 a0 a1 a2 a3 a4 a5 a6 a7 a8 a9 a10 a11 a12 a13 a14 a15 b0 b1 b2 b3 b4 b5 b6 b7 b8 b9 b10 b11 b12 b13 b14 b15 =
  a0*b15 + a8*b7 + a8*b15 + a1*b14 + a9*b6 + a9*b14 + a2*b13 + a10*b5 + a10*b13 + a3*b12 + a11*b4 + a11*b12 + a4*b11 + a12*b3 + a12*b11 + a5*b10 + a13*b2 + a13*b10 + a6*b9 + a14*b1 + a14*b9 + a7*b8 + a15*b0 + a15*b8.
Proof. reflexivity. Qed.

(* carry chain on exact columns: low columns s, high columns t *)
Definition carry_chain (s0 s1 s2 s3 s4 s5 s6 s7 t0 t1 t2 t3 t4 t5 t6 t7 : Z) : bn :=
  let u0 := s0 in
  let w0 := t0 in
  let u1 := s1 + u0 / 2 ^ 28 in
  let w1 := t1 + w0 / 2 ^ 28 in
  let u2 := s2 + u1 / 2 ^ 28 in
  let w2 := t2 + w1 / 2 ^ 28 in
  let u3 := s3 + u2 / 2 ^ 28 in
  let w3 := t3 + w2 / 2 ^ 28 in
  let u4 := s4 + u3 / 2 ^ 28 in
  let w4 := t4 + w3 / 2 ^ 28 in
  let u5 := s5 + u4 / 2 ^ 28 in
  let w5 := t5 + w4 / 2 ^ 28 in
  let u6 := s6 + u5 / 2 ^ 28 in
  let w6 := t6 + w5 / 2 ^ 28 in
  let u7 := s7 + u6 / 2 ^ 28 in
  let w7 := t7 + w6 / 2 ^ 28 in
  let z0 := u7 / 2 ^ 28 + w7 / 2 ^ 28 + w0 mod 2 ^ 28 in
  let z1 := w7 / 2 ^ 28 + u0 mod 2 ^ 28 in
  BN (z1 mod 2 ^ 28) (u1 mod 2 ^ 28 + z1 / 2 ^ 28) (u2 mod 2 ^ 28) (u3 mod 2 ^ 28) (u4 mod 2 ^ 28) (u5 mod 2 ^ 28) (u6 mod 2 ^ 28) (u7 mod 2 ^ 28) (z0 mod 2 ^ 28) (w1 mod 2 ^ 28 + z0 / 2 ^ 28) (w2 mod 2 ^ 28) (w3 mod 2 ^ 28) (w4 mod 2 ^ 28) (w5 mod 2 ^ 28) (w6 mod 2 ^ 28) (w7 mod 2 ^ 28).

(* the same programs with a let that is not reduced by conversion *)
Definition Let_In {A B : Type} (e : A) (f : A -> B) : B := f e.
Notation "'dlet' x := e 'in' b" := (Let_In e (fun x => b)) (at level 200, b at level 200).
Lemma let_in_step : forall (A B : Type) (e : A) (f : A -> B) (R : B),
  (forall v, v = e -> f v = R) -> Let_In e f = R.
Proof. intros A B e f R H. exact (H e eq_refl). Qed.

Ltac eqs :=
  lazymatch goal with
  | |- eqm (wadd64 _ _) _ => eapply eqm_wadd; eqs
  | |- eqm (wsub64 _ _) _ => eapply eqm_wsub; eqs
  | |- eqm (wmul64 _ _) _ => eapply eqm_wmul; eqs
  | |- eqm (shl64 _ 1) _ => eapply eqm_shl1; eqs
  | |- eqm ?v _ =>
      first [ is_var v; match goal with H : eqm v _ |- _ => exact H end | apply eqm_refl ]
  end.
(* one assignment whose value is only needed modulo 2^64 *)
Ltac stm v H :=
  apply let_in_step; intros v H; cbv beta;
  let e := fresh "e" in evar (e : Z);
  let K := fresh "K" in
  assert (K : eqm v e) by (subst e; rewrite H; eqs);
  subst e; clear H; rename K into H.
(* last assignment of a column: also record the range *)
Ltac stx v H R :=
  apply let_in_step; intros v H; cbv beta;
  assert (R : 0 <= v < 2 ^ 64) by (rewrite H; unfold wadd64, wsub64; apply wrap64_range);
  let e := fresh "e" in evar (e : Z);
  let K := fresh "K" in
  assert (K : eqm v e) by (subst e; rewrite H; eqs);
  subst e; clear H; rename K into H.
(* an assignment kept as an equation *)
Ltac ste v H := apply let_in_step; intros v H; cbv beta.

Lemma carry_bd : forall x, 0 <= x <= 2 ^ 64 -> 0 <= x / 2 ^ 28 <= 2 ^ 36.
Proof.
  intros x H. split; [ apply Z.div_pos; lia | apply Z.div_le_upper_bound; lia ].
Qed.
Lemma tail_add : forall x y,
  0 <= y < 2 ^ 38 -> wrap32 (x mod 2 ^ 28 + wrap32 (y / 2 ^ 28)) = x mod 2 ^ 28 + y / 2 ^ 28.
Proof.
  intros x y H. pose proof (Z.mod_pos_bound x (2 ^ 28) eq_refl).
  assert (0 <= y / 2 ^ 28 < 2 ^ 10)
    by (split; [ apply Z.div_pos; lia | apply Z.div_lt_upper_bound; lia ]).
  rewrite (wrap32_small (y / 2 ^ 28)) by lia. apply wrap32_small. lia.
Qed.
Lemma wadd64_exact : forall x y, 0 <= x -> 0 <= y -> x + y < 2 ^ 64 -> wadd64 x y = x + y.
Proof. intros. unfold wadd64. apply wrap64_small. lia. Qed.


Lemma col0_0_bd : forall a0 a1 a2 a3 a4 a5 a6 a7 a8 a9 a10 a11 a12 a13 a14 a15 b0 b1 b2 b3 b4 b5 b6 b7 b8 b9 b10 b11 b12 b13 b14 b15,
  bn_le LOOSE (BN a0 a1 a2 a3 a4 a5 a6 a7 a8 a9 a10 a11 a12 a13 a14 a15) -> bn_le LOOSE (BN b0 b1 b2 b3 b4 b5 b6 b7 b8 b9 b10 b11 b12 b13 b14 b15) ->
  0 <= col0_0 a0 a1 a2 a3 a4 a5 a6 a7 a8 a9 a10 a11 a12 a13 a14 a15 b0 b1 b2 b3 b4 b5 b6 b7 b8 b9 b10 b11 b12 b13 b14 b15 <= 38 * (LOOSE * LOOSE).
Proof.
  unfold bn_le. intros a0 a1 a2 a3 a4 a5 a6 a7 a8 a9 a10 a11 a12 a13 a14 a15 b0 b1 b2 b3 b4 b5 b6 b7 b8 b9 b10 b11 b12 b13 b14 b15 (Ha0 & Ha1 & Ha2 & Ha3 & Ha4 & Ha5 & Ha6 & Ha7 & Ha8 & Ha9 & Ha10 & Ha11 & Ha12 & Ha13 & Ha14 & Ha15) (Hb0 & Hb1 & Hb2 & Hb3 & Hb4 & Hb5 & Hb6 & Hb7 & Hb8 & Hb9 & Hb10 & Hb11 & Hb12 & Hb13 & Hb14 & Hb15).
  pose proof (mul_range _ _ _ Ha0 Hb0) as Pa0b0.
  pose proof (mul_range _ _ _ Ha1 Hb15) as Pa1b15.
  pose proof (mul_range _ _ _ Ha10 Hb14) as Pa10b14.
  pose proof (mul_range _ _ _ Ha10 Hb6) as Pa10b6.
  pose proof (mul_range _ _ _ Ha11 Hb13) as Pa11b13.
  pose proof (mul_range _ _ _ Ha11 Hb5) as Pa11b5.
  pose proof (mul_range _ _ _ Ha12 Hb12) as Pa12b12.
  pose proof (mul_range _ _ _ Ha12 Hb4) as Pa12b4.
  pose proof (mul_range _ _ _ Ha13 Hb11) as Pa13b11.
  pose proof (mul_range _ _ _ Ha13 Hb3) as Pa13b3.
  pose proof (mul_range _ _ _ Ha14 Hb10) as Pa14b10.
  pose proof (mul_range _ _ _ Ha14 Hb2) as Pa14b2.
  pose proof (mul_range _ _ _ Ha15 Hb1) as Pa15b1.
  pose proof (mul_range _ _ _ Ha15 Hb9) as Pa15b9.
  pose proof (mul_range _ _ _ Ha2 Hb14) as Pa2b14.
  pose proof (mul_range _ _ _ Ha3 Hb13) as Pa3b13.
  pose proof (mul_range _ _ _ Ha4 Hb12) as Pa4b12.
  pose proof (mul_range _ _ _ Ha5 Hb11) as Pa5b11.
  pose proof (mul_range _ _ _ Ha6 Hb10) as Pa6b10.
  pose proof (mul_range _ _ _ Ha7 Hb9) as Pa7b9.
  pose proof (mul_range _ _ _ Ha8 Hb8) as Pa8b8.
  pose proof (mul_range _ _ _ Ha9 Hb15) as Pa9b15.
  pose proof (mul_range _ _ _ Ha9 Hb7) as Pa9b7.
  unfold col0_0. clear - Pa0b0 Pa1b15 Pa10b14 Pa10b6 Pa11b13 Pa11b5 Pa12b12 Pa12b4 Pa13b11 Pa13b3 Pa14b10 Pa14b2 Pa15b1 Pa15b9 Pa2b14 Pa3b13 Pa4b12 Pa5b11 Pa6b10 Pa7b9 Pa8b8 Pa9b15 Pa9b7.
  set (M := LOOSE * LOOSE) in *. clearbody M.
  lia.
Qed.
Lemma col0_1_bd : forall a0 a1 a2 a3 a4 a5 a6 a7 a8 a9 a10 a11 a12 a13 a14 a15 b0 b1 b2 b3 b4 b5 b6 b7 b8 b9 b10 b11 b12 b13 b14 b15,
  bn_le LOOSE (BN a0 a1 a2 a3 a4 a5 a6 a7 a8 a9 a10 a11 a12 a13 a14 a15) -> bn_le LOOSE (BN b0 b1 b2 b3 b4 b5 b6 b7 b8 b9 b10 b11 b12 b13 b14 b15) ->
  0 <= col0_1 a0 a1 a2 a3 a4 a5 a6 a7 a8 a9 a10 a11 a12 a13 a14 a15 b0 b1 b2 b3 b4 b5 b6 b7 b8 b9 b10 b11 b12 b13 b14 b15 <= 38 * (LOOSE * LOOSE).
Proof.
  unfold bn_le. intros a0 a1 a2 a3 a4 a5 a6 a7 a8 a9 a10 a11 a12 a13 a14 a15 b0 b1 b2 b3 b4 b5 b6 b7 b8 b9 b10 b11 b12 b13 b14 b15 (Ha0 & Ha1 & Ha2 & Ha3 & Ha4 & Ha5 & Ha6 & Ha7 & Ha8 & Ha9 & Ha10 & Ha11 & Ha12 & Ha13 & Ha14 & Ha15) (Hb0 & Hb1 & Hb2 & Hb3 & Hb4 & Hb5 & Hb6 & Hb7 & Hb8 & Hb9 & Hb10 & Hb11 & Hb12 & Hb13 & Hb14 & Hb15).
  pose proof (mul_range _ _ _ Ha0 Hb1) as Pa0b1.
  pose proof (mul_range _ _ _ Ha1 Hb0) as Pa1b0.
  pose proof (mul_range _ _ _ Ha10 Hb15) as Pa10b15.
  pose proof (mul_range _ _ _ Ha10 Hb7) as Pa10b7.
  pose proof (mul_range _ _ _ Ha11 Hb14) as Pa11b14.
  pose proof (mul_range _ _ _ Ha11 Hb6) as Pa11b6.
  pose proof (mul_range _ _ _ Ha12 Hb13) as Pa12b13.
  pose proof (mul_range _ _ _ Ha12 Hb5) as Pa12b5.
  pose proof (mul_range _ _ _ Ha13 Hb12) as Pa13b12.
  pose proof (mul_range _ _ _ Ha13 Hb4) as Pa13b4.
  pose proof (mul_range _ _ _ Ha14 Hb11) as Pa14b11.
  pose proof (mul_range _ _ _ Ha14 Hb3) as Pa14b3.
  pose proof (mul_range _ _ _ Ha15 Hb10) as Pa15b10.
  pose proof (mul_range _ _ _ Ha15 Hb2) as Pa15b2.
  pose proof (mul_range _ _ _ Ha2 Hb15) as Pa2b15.
  pose proof (mul_range _ _ _ Ha3 Hb14) as Pa3b14.
  pose proof (mul_range _ _ _ Ha4 Hb13) as Pa4b13.
  pose proof (mul_range _ _ _ Ha5 Hb12) as Pa5b12.
  pose proof (mul_range _ _ _ Ha6 Hb11) as Pa6b11.
  pose proof (mul_range _ _ _ Ha7 Hb10) as Pa7b10.
  pose proof (mul_range _ _ _ Ha8 Hb9) as Pa8b9.
  pose proof (mul_range _ _ _ Ha9 Hb8) as Pa9b8.
  unfold col0_1. clear - Pa0b1 Pa1b0 Pa10b15 Pa10b7 Pa11b14 Pa11b6 Pa12b13 Pa12b5 Pa13b12 Pa13b4 Pa14b11 Pa14b3 Pa15b10 Pa15b2 Pa2b15 Pa3b14 Pa4b13 Pa5b12 Pa6b11 Pa7b10 Pa8b9 Pa9b8.
  set (M := LOOSE * LOOSE) in *. clearbody M.
  lia.
Qed.
Lemma col0_2_bd : forall a0 a1 a2 a3 a4 a5 a6 a7 a8 a9 a10 a11 a12 a13 a14 a15 b0 b1 b2 b3 b4 b5 b6 b7 b8 b9 b10 b11 b12 b13 b14 b15,
  bn_le LOOSE (BN a0 a1 a2 a3 a4 a5 a6 a7 a8 a9 a10 a11 a12 a13 a14 a15) -> bn_le LOOSE (BN b0 b1 b2 b3 b4 b5 b6 b7 b8 b9 b10 b11 b12 b13 b14 b15) ->
  0 <= col0_2 a0 a1 a2 a3 a4 a5 a6 a7 a8 a9 a10 a11 a12 a13 a14 a15 b0 b1 b2 b3 b4 b5 b6 b7 b8 b9 b10 b11 b12 b13 b14 b15 <= 38 * (LOOSE * LOOSE).
Proof.
  unfold bn_le. intros a0 a1 a2 a3 a4 a5 a6 a7 a8 a9 a10 a11 a12 a13 a14 a15 b0 b1 b2 b3 b4 b5 b6 b7 b8 b9 b10 b11 b12 b13 b14 b15 (Ha0 & Ha1 & Ha2 & Ha3 & Ha4 & Ha5 & Ha6 & Ha7 & Ha8 & Ha9 & Ha10 & Ha11 & Ha12 & Ha13 & Ha14 & Ha15) (Hb0 & Hb1 & Hb2 & Hb3 & Hb4 & Hb5 & Hb6 & Hb7 & Hb8 & Hb9 & Hb10 & Hb11 & Hb12 & Hb13 & Hb14 & Hb15).
  pose proof (mul_range _ _ _ Ha0 Hb2) as Pa0b2.
  pose proof (mul_range _ _ _ Ha1 Hb1) as Pa1b1.
  pose proof (mul_range _ _ _ Ha10 Hb8) as Pa10b8.
  pose proof (mul_range _ _ _ Ha11 Hb15) as Pa11b15.
  pose proof (mul_range _ _ _ Ha11 Hb7) as Pa11b7.
  pose proof (mul_range _ _ _ Ha12 Hb14) as Pa12b14.
  pose proof (mul_range _ _ _ Ha12 Hb6) as Pa12b6.
  pose proof (mul_range _ _ _ Ha13 Hb13) as Pa13b13.
  pose proof (mul_range _ _ _ Ha13 Hb5) as Pa13b5.
  pose proof (mul_range _ _ _ Ha14 Hb12) as Pa14b12.
  pose proof (mul_range _ _ _ Ha14 Hb4) as Pa14b4.
  pose proof (mul_range _ _ _ Ha15 Hb11) as Pa15b11.
  pose proof (mul_range _ _ _ Ha15 Hb3) as Pa15b3.
  pose proof (mul_range _ _ _ Ha2 Hb0) as Pa2b0.
  pose proof (mul_range _ _ _ Ha3 Hb15) as Pa3b15.
  pose proof (mul_range _ _ _ Ha4 Hb14) as Pa4b14.
  pose proof (mul_range _ _ _ Ha5 Hb13) as Pa5b13.
  pose proof (mul_range _ _ _ Ha6 Hb12) as Pa6b12.
  pose proof (mul_range _ _ _ Ha7 Hb11) as Pa7b11.
  pose proof (mul_range _ _ _ Ha8 Hb10) as Pa8b10.
  pose proof (mul_range _ _ _ Ha9 Hb9) as Pa9b9.
  unfold col0_2. clear - Pa0b2 Pa1b1 Pa10b8 Pa11b15 Pa11b7 Pa12b14 Pa12b6 Pa13b13 Pa13b5 Pa14b12 Pa14b4 Pa15b11 Pa15b3 Pa2b0 Pa3b15 Pa4b14 Pa5b13 Pa6b12 Pa7b11 Pa8b10 Pa9b9.
  set (M := LOOSE * LOOSE) in *. clearbody M.
  lia.
Qed.
Lemma col0_3_bd : forall a0 a1 a2 a3 a4 a5 a6 a7 a8 a9 a10 a11 a12 a13 a14 a15 b0 b1 b2 b3 b4 b5 b6 b7 b8 b9 b10 b11 b12 b13 b14 b15,
  bn_le LOOSE (BN a0 a1 a2 a3 a4 a5 a6 a7 a8 a9 a10 a11 a12 a13 a14 a15) -> bn_le LOOSE (BN b0 b1 b2 b3 b4 b5 b6 b7 b8 b9 b10 b11 b12 b13 b14 b15) ->
  0 <= col0_3 a0 a1 a2 a3 a4 a5 a6 a7 a8 a9 a10 a11 a12 a13 a14 a15 b0 b1 b2 b3 b4 b5 b6 b7 b8 b9 b10 b11 b12 b13 b14 b15 <= 38 * (LOOSE * LOOSE).
Proof.
  unfold bn_le. intros a0 a1 a2 a3 a4 a5 a6 a7 a8 a9 a10 a11 a12 a13 a14 a15 b0 b1 b2 b3 b4 b5 b6 b7 b8 b9 b10 b11 b12 b13 b14 b15 (Ha0 & Ha1 & Ha2 & Ha3 & Ha4 & Ha5 & Ha6 & Ha7 & Ha8 & Ha9 & Ha10 & Ha11 & Ha12 & Ha13 & Ha14 & Ha15) (Hb0 & Hb1 & Hb2 & Hb3 & Hb4 & Hb5 & Hb6 & Hb7 & Hb8 & Hb9 & Hb10 & Hb11 & Hb12 & Hb13 & Hb14 & Hb15).
  pose proof (mul_range _ _ _ Ha0 Hb3) as Pa0b3.
  pose proof (mul_range _ _ _ Ha1 Hb2) as Pa1b2.
  pose proof (mul_range _ _ _ Ha10 Hb9) as Pa10b9.
  pose proof (mul_range _ _ _ Ha11 Hb8) as Pa11b8.
  pose proof (mul_range _ _ _ Ha12 Hb15) as Pa12b15.
  pose proof (mul_range _ _ _ Ha12 Hb7) as Pa12b7.
  pose proof (mul_range _ _ _ Ha13 Hb14) as Pa13b14.
  pose proof (mul_range _ _ _ Ha13 Hb6) as Pa13b6.
  pose proof (mul_range _ _ _ Ha14 Hb13) as Pa14b13.
  pose proof (mul_range _ _ _ Ha14 Hb5) as Pa14b5.
  pose proof (mul_range _ _ _ Ha15 Hb12) as Pa15b12.
  pose proof (mul_range _ _ _ Ha15 Hb4) as Pa15b4.
  pose proof (mul_range _ _ _ Ha2 Hb1) as Pa2b1.
  pose proof (mul_range _ _ _ Ha3 Hb0) as Pa3b0.
  pose proof (mul_range _ _ _ Ha4 Hb15) as Pa4b15.
  pose proof (mul_range _ _ _ Ha5 Hb14) as Pa5b14.
  pose proof (mul_range _ _ _ Ha6 Hb13) as Pa6b13.
  pose proof (mul_range _ _ _ Ha7 Hb12) as Pa7b12.
  pose proof (mul_range _ _ _ Ha8 Hb11) as Pa8b11.
  pose proof (mul_range _ _ _ Ha9 Hb10) as Pa9b10.
  unfold col0_3. clear - Pa0b3 Pa1b2 Pa10b9 Pa11b8 Pa12b15 Pa12b7 Pa13b14 Pa13b6 Pa14b13 Pa14b5 Pa15b12 Pa15b4 Pa2b1 Pa3b0 Pa4b15 Pa5b14 Pa6b13 Pa7b12 Pa8b11 Pa9b10.
  set (M := LOOSE * LOOSE) in *. clearbody M.
  lia.
Qed.
Lemma col0_4_bd : forall a0 a1 a2 a3 a4 a5 a6 a7 a8 a9 a10 a11 a12 a13 a14 a15 b0 b1 b2 b3 b4 b5 b6 b7 b8 b9 b10 b11 b12 b13 b14 b15,
  bn_le LOOSE (BN a0 a1 a2 a3 a4 a5 a6 a7 a8 a9 a10 a11 a12 a13 a14 a15) -> bn_le LOOSE (BN b0 b1 b2 b3 b4 b5 b6 b7 b8 b9 b10 b11 b12 b13 b14 b15) ->
  0 <= col0_4 a0 a1 a2 a3 a4 a5 a6 a7 a8 a9 a10 a11 a12 a13 a14 a15 b0 b1 b2 b3 b4 b5 b6 b7 b8 b9 b10 b11 b12 b13 b14 b15 <= 38 * (LOOSE * LOOSE).
Proof.
  unfold bn_le. intros a0 a1 a2 a3 a4 a5 a6 a7 a8 a9 a10 a11 a12 a13 a14 a15 b0 b1 b2 b3 b4 b5 b6 b7 b8 b9 b10 b11 b12 b13 b14 b15 (Ha0 & Ha1 & Ha2 & Ha3 & Ha4 & Ha5 & Ha6 & Ha7 & Ha8 & Ha9 & Ha10 & Ha11 & Ha12 & Ha13 & Ha14 & Ha15) (Hb0 & Hb1 & Hb2 & Hb3 & Hb4 & Hb5 & Hb6 & Hb7 & Hb8 & Hb9 & Hb10 & Hb11 & Hb12 & Hb13 & Hb14 & Hb15).
  pose proof (mul_range _ _ _ Ha0 Hb4) as Pa0b4.
  pose proof (mul_range _ _ _ Ha1 Hb3) as Pa1b3.
  pose proof (mul_range _ _ _ Ha10 Hb10) as Pa10b10.
  pose proof (mul_range _ _ _ Ha11 Hb9) as Pa11b9.
  pose proof (mul_range _ _ _ Ha12 Hb8) as Pa12b8.
  pose proof (mul_range _ _ _ Ha13 Hb15) as Pa13b15.
  pose proof (mul_range _ _ _ Ha13 Hb7) as Pa13b7.
  pose proof (mul_range _ _ _ Ha14 Hb14) as Pa14b14.
  pose proof (mul_range _ _ _ Ha14 Hb6) as Pa14b6.
  pose proof (mul_range _ _ _ Ha15 Hb13) as Pa15b13.
  pose proof (mul_range _ _ _ Ha15 Hb5) as Pa15b5.
  pose proof (mul_range _ _ _ Ha2 Hb2) as Pa2b2.
  pose proof (mul_range _ _ _ Ha3 Hb1) as Pa3b1.
  pose proof (mul_range _ _ _ Ha4 Hb0) as Pa4b0.
  pose proof (mul_range _ _ _ Ha5 Hb15) as Pa5b15.
  pose proof (mul_range _ _ _ Ha6 Hb14) as Pa6b14.
  pose proof (mul_range _ _ _ Ha7 Hb13) as Pa7b13.
  pose proof (mul_range _ _ _ Ha8 Hb12) as Pa8b12.
  pose proof (mul_range _ _ _ Ha9 Hb11) as Pa9b11.
  unfold col0_4. clear - Pa0b4 Pa1b3 Pa10b10 Pa11b9 Pa12b8 Pa13b15 Pa13b7 Pa14b14 Pa14b6 Pa15b13 Pa15b5 Pa2b2 Pa3b1 Pa4b0 Pa5b15 Pa6b14 Pa7b13 Pa8b12 Pa9b11.
  set (M := LOOSE * LOOSE) in *. clearbody M.
  lia.
Qed.
Lemma col0_5_bd : forall a0 a1 a2 a3 a4 a5 a6 a7 a8 a9 a10 a11 a12 a13 a14 a15 b0 b1 b2 b3 b4 b5 b6 b7 b8 b9 b10 b11 b12 b13 b14 b15,
  bn_le LOOSE (BN a0 a1 a2 a3 a4 a5 a6 a7 a8 a9 a10 a11 a12 a13 a14 a15) -> bn_le LOOSE (BN b0 b1 b2 b3 b4 b5 b6 b7 b8 b9 b10 b11 b12 b13 b14 b15) ->
  0 <= col0_5 a0 a1 a2 a3 a4 a5 a6 a7 a8 a9 a10 a11 a12 a13 a14 a15 b0 b1 b2 b3 b4 b5 b6 b7 b8 b9 b10 b11 b12 b13 b14 b15 <= 38 * (LOOSE * LOOSE).
Proof.
  unfold bn_le. intros a0 a1 a2 a3 a4 a5 a6 a7 a8 a9 a10 a11 a12 a13 a14 a15 b0 b1 b2 b3 b4 b5 b6 b7 b8 b9 b10 b11 b12 b13 b14 b15 (Ha0 & Ha1 & Ha2 & Ha3 & Ha4 & Ha5 & Ha6 & Ha7 & Ha8 & Ha9 & Ha10 & Ha11 & Ha12 & Ha13 & Ha14 & Ha15) (Hb0 & Hb1 & Hb2 & Hb3 & Hb4 & Hb5 & Hb6 & Hb7 & Hb8 & Hb9 & Hb10 & Hb11 & Hb12 & Hb13 & Hb14 & Hb15).
  pose proof (mul_range _ _ _ Ha0 Hb5) as Pa0b5.
  pose proof (mul_range _ _ _ Ha1 Hb4) as Pa1b4.
  pose proof (mul_range _ _ _ Ha10 Hb11) as Pa10b11.
  pose proof (mul_range _ _ _ Ha11 Hb10) as Pa11b10.
  pose proof (mul_range _ _ _ Ha12 Hb9) as Pa12b9.
  pose proof (mul_range _ _ _ Ha13 Hb8) as Pa13b8.
  pose proof (mul_range _ _ _ Ha14 Hb15) as Pa14b15.
  pose proof (mul_range _ _ _ Ha14 Hb7) as Pa14b7.
  pose proof (mul_range _ _ _ Ha15 Hb14) as Pa15b14.
  pose proof (mul_range _ _ _ Ha15 Hb6) as Pa15b6.
  pose proof (mul_range _ _ _ Ha2 Hb3) as Pa2b3.
  pose proof (mul_range _ _ _ Ha3 Hb2) as Pa3b2.
  pose proof (mul_range _ _ _ Ha4 Hb1) as Pa4b1.
  pose proof (mul_range _ _ _ Ha5 Hb0) as Pa5b0.
  pose proof (mul_range _ _ _ Ha6 Hb15) as Pa6b15.
  pose proof (mul_range _ _ _ Ha7 Hb14) as Pa7b14.
  pose proof (mul_range _ _ _ Ha8 Hb13) as Pa8b13.
  pose proof (mul_range _ _ _ Ha9 Hb12) as Pa9b12.
  unfold col0_5. clear - Pa0b5 Pa1b4 Pa10b11 Pa11b10 Pa12b9 Pa13b8 Pa14b15 Pa14b7 Pa15b14 Pa15b6 Pa2b3 Pa3b2 Pa4b1 Pa5b0 Pa6b15 Pa7b14 Pa8b13 Pa9b12.
  set (M := LOOSE * LOOSE) in *. clearbody M.
  lia.
Qed.
Lemma col0_6_bd : forall a0 a1 a2 a3 a4 a5 a6 a7 a8 a9 a10 a11 a12 a13 a14 a15 b0 b1 b2 b3 b4 b5 b6 b7 b8 b9 b10 b11 b12 b13 b14 b15,
  bn_le LOOSE (BN a0 a1 a2 a3 a4 a5 a6 a7 a8 a9 a10 a11 a12 a13 a14 a15) -> bn_le LOOSE (BN b0 b1 b2 b3 b4 b5 b6 b7 b8 b9 b10 b11 b12 b13 b14 b15) ->
  0 <= col0_6 a0 a1 a2 a3 a4 a5 a6 a7 a8 a9 a10 a11 a12 a13 a14 a15 b0 b1 b2 b3 b4 b5 b6 b7 b8 b9 b10 b11 b12 b13 b14 b15 <= 38 * (LOOSE * LOOSE).
Proof.
  unfold bn_le. intros a0 a1 a2 a3 a4 a5 a6 a7 a8 a9 a10 a11 a12 a13 a14 a15 b0 b1 b2 b3 b4 b5 b6 b7 b8 b9 b10 b11 b12 b13 b14 b15 (Ha0 & Ha1 & Ha2 & Ha3 & Ha4 & Ha5 & Ha6 & Ha7 & Ha8 & Ha9 & Ha10 & Ha11 & Ha12 & Ha13 & Ha14 & Ha15) (Hb0 & Hb1 & Hb2 & Hb3 & Hb4 & Hb5 & Hb6 & Hb7 & Hb8 & Hb9 & Hb10 & Hb11 & Hb12 & Hb13 & Hb14 & Hb15).
  pose proof (mul_range _ _ _ Ha0 Hb6) as Pa0b6.
  pose proof (mul_range _ _ _ Ha1 Hb5) as Pa1b5.
  pose proof (mul_range _ _ _ Ha10 Hb12) as Pa10b12.
  pose proof (mul_range _ _ _ Ha11 Hb11) as Pa11b11.
  pose proof (mul_range _ _ _ Ha12 Hb10) as Pa12b10.
  pose proof (mul_range _ _ _ Ha13 Hb9) as Pa13b9.
  pose proof (mul_range _ _ _ Ha14 Hb8) as Pa14b8.
  pose proof (mul_range _ _ _ Ha15 Hb15) as Pa15b15.
  pose proof (mul_range _ _ _ Ha15 Hb7) as Pa15b7.
  pose proof (mul_range _ _ _ Ha2 Hb4) as Pa2b4.
  pose proof (mul_range _ _ _ Ha3 Hb3) as Pa3b3.
  pose proof (mul_range _ _ _ Ha4 Hb2) as Pa4b2.
  pose proof (mul_range _ _ _ Ha5 Hb1) as Pa5b1.
  pose proof (mul_range _ _ _ Ha6 Hb0) as Pa6b0.
  pose proof (mul_range _ _ _ Ha7 Hb15) as Pa7b15.
  pose proof (mul_range _ _ _ Ha8 Hb14) as Pa8b14.
  pose proof (mul_range _ _ _ Ha9 Hb13) as Pa9b13.
  unfold col0_6. clear - Pa0b6 Pa1b5 Pa10b12 Pa11b11 Pa12b10 Pa13b9 Pa14b8 Pa15b15 Pa15b7 Pa2b4 Pa3b3 Pa4b2 Pa5b1 Pa6b0 Pa7b15 Pa8b14 Pa9b13.
  set (M := LOOSE * LOOSE) in *. clearbody M.
  lia.
Qed.
Lemma col0_7_bd : forall a0 a1 a2 a3 a4 a5 a6 a7 a8 a9 a10 a11 a12 a13 a14 a15 b0 b1 b2 b3 b4 b5 b6 b7 b8 b9 b10 b11 b12 b13 b14 b15,
  bn_le LOOSE (BN a0 a1 a2 a3 a4 a5 a6 a7 a8 a9 a10 a11 a12 a13 a14 a15) -> bn_le LOOSE (BN b0 b1 b2 b3 b4 b5 b6 b7 b8 b9 b10 b11 b12 b13 b14 b15) ->
  0 <= col0_7 a0 a1 a2 a3 a4 a5 a6 a7 a8 a9 a10 a11 a12 a13 a14 a15 b0 b1 b2 b3 b4 b5 b6 b7 b8 b9 b10 b11 b12 b13 b14 b15 <= 38 * (LOOSE * LOOSE).
Proof.
  unfold bn_le. intros a0 a1 a2 a3 a4 a5 a6 a7 a8 a9 a10 a11 a12 a13 a14 a15 b0 b1 b2 b3 b4 b5 b6 b7 b8 b9 b10 b11 b12 b13 b14 b15 (Ha0 & Ha1 & Ha2 & Ha3 & Ha4 & Ha5 & Ha6 & Ha7 & Ha8 & Ha9 & Ha10 & Ha11 & Ha12 & Ha13 & Ha14 & Ha15) (Hb0 & Hb1 & Hb2 & Hb3 & Hb4 & Hb5 & Hb6 & Hb7 & Hb8 & Hb9 & Hb10 & Hb11 & Hb12 & Hb13 & Hb14 & Hb15).
  pose proof (mul_range _ _ _ Ha0 Hb7) as Pa0b7.
  pose proof (mul_range _ _ _ Ha1 Hb6) as Pa1b6.
  pose proof (mul_range _ _ _ Ha10 Hb13) as Pa10b13.
  pose proof (mul_range _ _ _ Ha11 Hb12) as Pa11b12.
  pose proof (mul_range _ _ _ Ha12 Hb11) as Pa12b11.
  pose proof (mul_range _ _ _ Ha13 Hb10) as Pa13b10.
  pose proof (mul_range _ _ _ Ha14 Hb9) as Pa14b9.
  pose proof (mul_range _ _ _ Ha15 Hb8) as Pa15b8.
  pose proof (mul_range _ _ _ Ha2 Hb5) as Pa2b5.
  pose proof (mul_range _ _ _ Ha3 Hb4) as Pa3b4.
  pose proof (mul_range _ _ _ Ha4 Hb3) as Pa4b3.
  pose proof (mul_range _ _ _ Ha5 Hb2) as Pa5b2.
  pose proof (mul_range _ _ _ Ha6 Hb1) as Pa6b1.
  pose proof (mul_range _ _ _ Ha7 Hb0) as Pa7b0.
  pose proof (mul_range _ _ _ Ha8 Hb15) as Pa8b15.
  pose proof (mul_range _ _ _ Ha9 Hb14) as Pa9b14.
  unfold col0_7. clear - Pa0b7 Pa1b6 Pa10b13 Pa11b12 Pa12b11 Pa13b10 Pa14b9 Pa15b8 Pa2b5 Pa3b4 Pa4b3 Pa5b2 Pa6b1 Pa7b0 Pa8b15 Pa9b14.
  set (M := LOOSE * LOOSE) in *. clearbody M.
  lia.
Qed.
Lemma col1_0_bd : forall a0 a1 a2 a3 a4 a5 a6 a7 a8 a9 a10 a11 a12 a13 a14 a15 b0 b1 b2 b3 b4 b5 b6 b7 b8 b9 b10 b11 b12 b13 b14 b15,
  bn_le LOOSE (BN a0 a1 a2 a3 a4 a5 a6 a7 a8 a9 a10 a11 a12 a13 a14 a15) -> bn_le LOOSE (BN b0 b1 b2 b3 b4 b5 b6 b7 b8 b9 b10 b11 b12 b13 b14 b15) ->
  0 <= col1_0 a0 a1 a2 a3 a4 a5 a6 a7 a8 a9 a10 a11 a12 a13 a14 a15 b0 b1 b2 b3 b4 b5 b6 b7 b8 b9 b10 b11 b12 b13 b14 b15 <= 38 * (LOOSE * LOOSE).
Proof.
  unfold bn_le. intros a0 a1 a2 a3 a4 a5 a6 a7 a8 a9 a10 a11 a12 a13 a14 a15 b0 b1 b2 b3 b4 b5 b6 b7 b8 b9 b10 b11 b12 b13 b14 b15 (Ha0 & Ha1 & Ha2 & Ha3 & Ha4 & Ha5 & Ha6 & Ha7 & Ha8 & Ha9 & Ha10 & Ha11 & Ha12 & Ha13 & Ha14 & Ha15) (Hb0 & Hb1 & Hb2 & Hb3 & Hb4 & Hb5 & Hb6 & Hb7 & Hb8 & Hb9 & Hb10 & Hb11 & Hb12 & Hb13 & Hb14 & Hb15).
  pose proof (mul_range _ _ _ Ha0 Hb8) as Pa0b8.
  pose proof (mul_range _ _ _ Ha1 Hb15) as Pa1b15.
  pose proof (mul_range _ _ _ Ha1 Hb7) as Pa1b7.
  pose proof (mul_range _ _ _ Ha10 Hb14) as Pa10b14.
  pose proof (mul_range _ _ _ Ha10 Hb6) as Pa10b6.
  pose proof (mul_range _ _ _ Ha11 Hb13) as Pa11b13.
  pose proof (mul_range _ _ _ Ha11 Hb5) as Pa11b5.
  pose proof (mul_range _ _ _ Ha12 Hb12) as Pa12b12.
  pose proof (mul_range _ _ _ Ha12 Hb4) as Pa12b4.
  pose proof (mul_range _ _ _ Ha13 Hb11) as Pa13b11.
  pose proof (mul_range _ _ _ Ha13 Hb3) as Pa13b3.
  pose proof (mul_range _ _ _ Ha14 Hb10) as Pa14b10.
  pose proof (mul_range _ _ _ Ha14 Hb2) as Pa14b2.
  pose proof (mul_range _ _ _ Ha15 Hb1) as Pa15b1.
  pose proof (mul_range _ _ _ Ha15 Hb9) as Pa15b9.
  pose proof (mul_range _ _ _ Ha2 Hb14) as Pa2b14.
  pose proof (mul_range _ _ _ Ha2 Hb6) as Pa2b6.
  pose proof (mul_range _ _ _ Ha3 Hb13) as Pa3b13.
  pose proof (mul_range _ _ _ Ha3 Hb5) as Pa3b5.
  pose proof (mul_range _ _ _ Ha4 Hb12) as Pa4b12.
  pose proof (mul_range _ _ _ Ha4 Hb4) as Pa4b4.
  pose proof (mul_range _ _ _ Ha5 Hb11) as Pa5b11.
  pose proof (mul_range _ _ _ Ha5 Hb3) as Pa5b3.
  pose proof (mul_range _ _ _ Ha6 Hb10) as Pa6b10.
  pose proof (mul_range _ _ _ Ha6 Hb2) as Pa6b2.
  pose proof (mul_range _ _ _ Ha7 Hb1) as Pa7b1.
  pose proof (mul_range _ _ _ Ha7 Hb9) as Pa7b9.
  pose proof (mul_range _ _ _ Ha8 Hb0) as Pa8b0.
  pose proof (mul_range _ _ _ Ha8 Hb8) as Pa8b8.
  pose proof (mul_range _ _ _ Ha9 Hb15) as Pa9b15.
  pose proof (mul_range _ _ _ Ha9 Hb7) as Pa9b7.
  unfold col1_0. clear - Pa0b8 Pa1b15 Pa1b7 Pa10b14 Pa10b6 Pa11b13 Pa11b5 Pa12b12 Pa12b4 Pa13b11 Pa13b3 Pa14b10 Pa14b2 Pa15b1 Pa15b9 Pa2b14 Pa2b6 Pa3b13 Pa3b5 Pa4b12 Pa4b4 Pa5b11 Pa5b3 Pa6b10 Pa6b2 Pa7b1 Pa7b9 Pa8b0 Pa8b8 Pa9b15 Pa9b7.
  set (M := LOOSE * LOOSE) in *. clearbody M.
  lia.
Qed.
Lemma col1_1_bd : forall a0 a1 a2 a3 a4 a5 a6 a7 a8 a9 a10 a11 a12 a13 a14 a15 b0 b1 b2 b3 b4 b5 b6 b7 b8 b9 b10 b11 b12 b13 b14 b15,
  bn_le LOOSE (BN a0 a1 a2 a3 a4 a5 a6 a7 a8 a9 a10 a11 a12 a13 a14 a15) -> bn_le LOOSE (BN b0 b1 b2 b3 b4 b5 b6 b7 b8 b9 b10 b11 b12 b13 b14 b15) ->
  0 <= col1_1 a0 a1 a2 a3 a4 a5 a6 a7 a8 a9 a10 a11 a12 a13 a14 a15 b0 b1 b2 b3 b4 b5 b6 b7 b8 b9 b10 b11 b12 b13 b14 b15 <= 38 * (LOOSE * LOOSE).
Proof.
  unfold bn_le. intros a0 a1 a2 a3 a4 a5 a6 a7 a8 a9 a10 a11 a12 a13 a14 a15 b0 b1 b2 b3 b4 b5 b6 b7 b8 b9 b10 b11 b12 b13 b14 b15 (Ha0 & Ha1 & Ha2 & Ha3 & Ha4 & Ha5 & Ha6 & Ha7 & Ha8 & Ha9 & Ha10 & Ha11 & Ha12 & Ha13 & Ha14 & Ha15) (Hb0 & Hb1 & Hb2 & Hb3 & Hb4 & Hb5 & Hb6 & Hb7 & Hb8 & Hb9 & Hb10 & Hb11 & Hb12 & Hb13 & Hb14 & Hb15).
  pose proof (mul_range _ _ _ Ha0 Hb9) as Pa0b9.
  pose proof (mul_range _ _ _ Ha1 Hb8) as Pa1b8.
  pose proof (mul_range _ _ _ Ha10 Hb15) as Pa10b15.
  pose proof (mul_range _ _ _ Ha10 Hb7) as Pa10b7.
  pose proof (mul_range _ _ _ Ha11 Hb14) as Pa11b14.
  pose proof (mul_range _ _ _ Ha11 Hb6) as Pa11b6.
  pose proof (mul_range _ _ _ Ha12 Hb13) as Pa12b13.
  pose proof (mul_range _ _ _ Ha12 Hb5) as Pa12b5.
  pose proof (mul_range _ _ _ Ha13 Hb12) as Pa13b12.
  pose proof (mul_range _ _ _ Ha13 Hb4) as Pa13b4.
  pose proof (mul_range _ _ _ Ha14 Hb11) as Pa14b11.
  pose proof (mul_range _ _ _ Ha14 Hb3) as Pa14b3.
  pose proof (mul_range _ _ _ Ha15 Hb10) as Pa15b10.
  pose proof (mul_range _ _ _ Ha15 Hb2) as Pa15b2.
  pose proof (mul_range _ _ _ Ha2 Hb15) as Pa2b15.
  pose proof (mul_range _ _ _ Ha2 Hb7) as Pa2b7.
  pose proof (mul_range _ _ _ Ha3 Hb14) as Pa3b14.
  pose proof (mul_range _ _ _ Ha3 Hb6) as Pa3b6.
  pose proof (mul_range _ _ _ Ha4 Hb13) as Pa4b13.
  pose proof (mul_range _ _ _ Ha4 Hb5) as Pa4b5.
  pose proof (mul_range _ _ _ Ha5 Hb12) as Pa5b12.
  pose proof (mul_range _ _ _ Ha5 Hb4) as Pa5b4.
  pose proof (mul_range _ _ _ Ha6 Hb11) as Pa6b11.
  pose proof (mul_range _ _ _ Ha6 Hb3) as Pa6b3.
  pose proof (mul_range _ _ _ Ha7 Hb10) as Pa7b10.
  pose proof (mul_range _ _ _ Ha7 Hb2) as Pa7b2.
  pose proof (mul_range _ _ _ Ha8 Hb1) as Pa8b1.
  pose proof (mul_range _ _ _ Ha8 Hb9) as Pa8b9.
  pose proof (mul_range _ _ _ Ha9 Hb0) as Pa9b0.
  pose proof (mul_range _ _ _ Ha9 Hb8) as Pa9b8.
  unfold col1_1. clear - Pa0b9 Pa1b8 Pa10b15 Pa10b7 Pa11b14 Pa11b6 Pa12b13 Pa12b5 Pa13b12 Pa13b4 Pa14b11 Pa14b3 Pa15b10 Pa15b2 Pa2b15 Pa2b7 Pa3b14 Pa3b6 Pa4b13 Pa4b5 Pa5b12 Pa5b4 Pa6b11 Pa6b3 Pa7b10 Pa7b2 Pa8b1 Pa8b9 Pa9b0 Pa9b8.
  set (M := LOOSE * LOOSE) in *. clearbody M.
  lia.
Qed.
Lemma col1_2_bd : forall a0 a1 a2 a3 a4 a5 a6 a7 a8 a9 a10 a11 a12 a13 a14 a15 b0 b1 b2 b3 b4 b5 b6 b7 b8 b9 b10 b11 b12 b13 b14 b15,
  bn_le LOOSE (BN a0 a1 a2 a3 a4 a5 a6 a7 a8 a9 a10 a11 a12 a13 a14 a15) -> bn_le LOOSE (BN b0 b1 b2 b3 b4 b5 b6 b7 b8 b9 b10 b11 b12 b13 b14 b15) ->
  0 <= col1_2 a0 a1 a2 a3 a4 a5 a6 a7 a8 a9 a10 a11 a12 a13 a14 a15 b0 b1 b2 b3 b4 b5 b6 b7 b8 b9 b10 b11 b12 b13 b14 b15 <= 38 * (LOOSE * LOOSE).
Proof.
  unfold bn_le. intros a0 a1 a2 a3 a4 a5 a6 a7 a8 a9 a10 a11 a12 a13 a14 a15 b0 b1 b2 b3 b4 b5 b6 b7 b8 b9 b10 b11 b12 b13 b14 b15 (Ha0 & Ha1 & Ha2 & Ha3 & Ha4 & Ha5 & Ha6 & Ha7 & Ha8 & Ha9 & Ha10 & Ha11 & Ha12 & Ha13 & Ha14 & Ha15) (Hb0 & Hb1 & Hb2 & Hb3 & Hb4 & Hb5 & Hb6 & Hb7 & Hb8 & Hb9 & Hb10 & Hb11 & Hb12 & Hb13 & Hb14 & Hb15).
  pose proof (mul_range _ _ _ Ha0 Hb10) as Pa0b10.
  pose proof (mul_range _ _ _ Ha1 Hb9) as Pa1b9.
  pose proof (mul_range _ _ _ Ha10 Hb0) as Pa10b0.
  pose proof (mul_range _ _ _ Ha10 Hb8) as Pa10b8.
  pose proof (mul_range _ _ _ Ha11 Hb15) as Pa11b15.
  pose proof (mul_range _ _ _ Ha11 Hb7) as Pa11b7.
  pose proof (mul_range _ _ _ Ha12 Hb14) as Pa12b14.
  pose proof (mul_range _ _ _ Ha12 Hb6) as Pa12b6.
  pose proof (mul_range _ _ _ Ha13 Hb13) as Pa13b13.
  pose proof (mul_range _ _ _ Ha13 Hb5) as Pa13b5.
  pose proof (mul_range _ _ _ Ha14 Hb12) as Pa14b12.
  pose proof (mul_range _ _ _ Ha14 Hb4) as Pa14b4.
  pose proof (mul_range _ _ _ Ha15 Hb11) as Pa15b11.
  pose proof (mul_range _ _ _ Ha15 Hb3) as Pa15b3.
  pose proof (mul_range _ _ _ Ha2 Hb8) as Pa2b8.
  pose proof (mul_range _ _ _ Ha3 Hb15) as Pa3b15.
  pose proof (mul_range _ _ _ Ha3 Hb7) as Pa3b7.
  pose proof (mul_range _ _ _ Ha4 Hb14) as Pa4b14.
  pose proof (mul_range _ _ _ Ha4 Hb6) as Pa4b6.
  pose proof (mul_range _ _ _ Ha5 Hb13) as Pa5b13.
  pose proof (mul_range _ _ _ Ha5 Hb5) as Pa5b5.
  pose proof (mul_range _ _ _ Ha6 Hb12) as Pa6b12.
  pose proof (mul_range _ _ _ Ha6 Hb4) as Pa6b4.
  pose proof (mul_range _ _ _ Ha7 Hb11) as Pa7b11.
  pose proof (mul_range _ _ _ Ha7 Hb3) as Pa7b3.
  pose proof (mul_range _ _ _ Ha8 Hb10) as Pa8b10.
  pose proof (mul_range _ _ _ Ha8 Hb2) as Pa8b2.
  pose proof (mul_range _ _ _ Ha9 Hb1) as Pa9b1.
  pose proof (mul_range _ _ _ Ha9 Hb9) as Pa9b9.
  unfold col1_2. clear - Pa0b10 Pa1b9 Pa10b0 Pa10b8 Pa11b15 Pa11b7 Pa12b14 Pa12b6 Pa13b13 Pa13b5 Pa14b12 Pa14b4 Pa15b11 Pa15b3 Pa2b8 Pa3b15 Pa3b7 Pa4b14 Pa4b6 Pa5b13 Pa5b5 Pa6b12 Pa6b4 Pa7b11 Pa7b3 Pa8b10 Pa8b2 Pa9b1 Pa9b9.
  set (M := LOOSE * LOOSE) in *. clearbody M.
  lia.
Qed.
Lemma col1_3_bd : forall a0 a1 a2 a3 a4 a5 a6 a7 a8 a9 a10 a11 a12 a13 a14 a15 b0 b1 b2 b3 b4 b5 b6 b7 b8 b9 b10 b11 b12 b13 b14 b15,
  bn_le LOOSE (BN a0 a1 a2 a3 a4 a5 a6 a7 a8 a9 a10 a11 a12 a13 a14 a15) -> bn_le LOOSE (BN b0 b1 b2 b3 b4 b5 b6 b7 b8 b9 b10 b11 b12 b13 b14 b15) ->
  0 <= col1_3 a0 a1 a2 a3 a4 a5 a6 a7 a8 a9 a10 a11 a12 a13 a14 a15 b0 b1 b2 b3 b4 b5 b6 b7 b8 b9 b10 b11 b12 b13 b14 b15 <= 38 * (LOOSE * LOOSE).
Proof.
  unfold bn_le. intros a0 a1 a2 a3 a4 a5 a6 a7 a8 a9 a10 a11 a12 a13 a14 a15 b0 b1 b2 b3 b4 b5 b6 b7 b8 b9 b10 b11 b12 b13 b14 b15 (Ha0 & Ha1 & Ha2 & Ha3 & Ha4 & Ha5 & Ha6 & Ha7 & Ha8 & Ha9 & Ha10 & Ha11 & Ha12 & Ha13 & Ha14 & Ha15) (Hb0 & Hb1 & Hb2 & Hb3 & Hb4 & Hb5 & Hb6 & Hb7 & Hb8 & Hb9 & Hb10 & Hb11 & Hb12 & Hb13 & Hb14 & Hb15).
  pose proof (mul_range _ _ _ Ha0 Hb11) as Pa0b11.
  pose proof (mul_range _ _ _ Ha1 Hb10) as Pa1b10.
  pose proof (mul_range _ _ _ Ha10 Hb1) as Pa10b1.
  pose proof (mul_range _ _ _ Ha10 Hb9) as Pa10b9.
  pose proof (mul_range _ _ _ Ha11 Hb0) as Pa11b0.
  pose proof (mul_range _ _ _ Ha11 Hb8) as Pa11b8.
  pose proof (mul_range _ _ _ Ha12 Hb15) as Pa12b15.
  pose proof (mul_range _ _ _ Ha12 Hb7) as Pa12b7.
  pose proof (mul_range _ _ _ Ha13 Hb14) as Pa13b14.
  pose proof (mul_range _ _ _ Ha13 Hb6) as Pa13b6.
  pose proof (mul_range _ _ _ Ha14 Hb13) as Pa14b13.
  pose proof (mul_range _ _ _ Ha14 Hb5) as Pa14b5.
  pose proof (mul_range _ _ _ Ha15 Hb12) as Pa15b12.
  pose proof (mul_range _ _ _ Ha15 Hb4) as Pa15b4.
  pose proof (mul_range _ _ _ Ha2 Hb9) as Pa2b9.
  pose proof (mul_range _ _ _ Ha3 Hb8) as Pa3b8.
  pose proof (mul_range _ _ _ Ha4 Hb15) as Pa4b15.
  pose proof (mul_range _ _ _ Ha4 Hb7) as Pa4b7.
  pose proof (mul_range _ _ _ Ha5 Hb14) as Pa5b14.
  pose proof (mul_range _ _ _ Ha5 Hb6) as Pa5b6.
  pose proof (mul_range _ _ _ Ha6 Hb13) as Pa6b13.
  pose proof (mul_range _ _ _ Ha6 Hb5) as Pa6b5.
  pose proof (mul_range _ _ _ Ha7 Hb12) as Pa7b12.
  pose proof (mul_range _ _ _ Ha7 Hb4) as Pa7b4.
  pose proof (mul_range _ _ _ Ha8 Hb11) as Pa8b11.
  pose proof (mul_range _ _ _ Ha8 Hb3) as Pa8b3.
  pose proof (mul_range _ _ _ Ha9 Hb10) as Pa9b10.
  pose proof (mul_range _ _ _ Ha9 Hb2) as Pa9b2.
  unfold col1_3. clear - Pa0b11 Pa1b10 Pa10b1 Pa10b9 Pa11b0 Pa11b8 Pa12b15 Pa12b7 Pa13b14 Pa13b6 Pa14b13 Pa14b5 Pa15b12 Pa15b4 Pa2b9 Pa3b8 Pa4b15 Pa4b7 Pa5b14 Pa5b6 Pa6b13 Pa6b5 Pa7b12 Pa7b4 Pa8b11 Pa8b3 Pa9b10 Pa9b2.
  set (M := LOOSE * LOOSE) in *. clearbody M.
  lia.
Qed.
Lemma col1_4_bd : forall a0 a1 a2 a3 a4 a5 a6 a7 a8 a9 a10 a11 a12 a13 a14 a15 b0 b1 b2 b3 b4 b5 b6 b7 b8 b9 b10 b11 b12 b13 b14 b15,
  bn_le LOOSE (BN a0 a1 a2 a3 a4 a5 a6 a7 a8 a9 a10 a11 a12 a13 a14 a15) -> bn_le LOOSE (BN b0 b1 b2 b3 b4 b5 b6 b7 b8 b9 b10 b11 b12 b13 b14 b15) ->
  0 <= col1_4 a0 a1 a2 a3 a4 a5 a6 a7 a8 a9 a10 a11 a12 a13 a14 a15 b0 b1 b2 b3 b4 b5 b6 b7 b8 b9 b10 b11 b12 b13 b14 b15 <= 38 * (LOOSE * LOOSE).
Proof.
  unfold bn_le. intros a0 a1 a2 a3 a4 a5 a6 a7 a8 a9 a10 a11 a12 a13 a14 a15 b0 b1 b2 b3 b4 b5 b6 b7 b8 b9 b10 b11 b12 b13 b14 b15 (Ha0 & Ha1 & Ha2 & Ha3 & Ha4 & Ha5 & Ha6 & Ha7 & Ha8 & Ha9 & Ha10 & Ha11 & Ha12 & Ha13 & Ha14 & Ha15) (Hb0 & Hb1 & Hb2 & Hb3 & Hb4 & Hb5 & Hb6 & Hb7 & Hb8 & Hb9 & Hb10 & Hb11 & Hb12 & Hb13 & Hb14 & Hb15).
  pose proof (mul_range _ _ _ Ha0 Hb12) as Pa0b12.
  pose proof (mul_range _ _ _ Ha1 Hb11) as Pa1b11.
  pose proof (mul_range _ _ _ Ha10 Hb10) as Pa10b10.
  pose proof (mul_range _ _ _ Ha10 Hb2) as Pa10b2.
  pose proof (mul_range _ _ _ Ha11 Hb1) as Pa11b1.
  pose proof (mul_range _ _ _ Ha11 Hb9) as Pa11b9.
  pose proof (mul_range _ _ _ Ha12 Hb0) as Pa12b0.
  pose proof (mul_range _ _ _ Ha12 Hb8) as Pa12b8.
  pose proof (mul_range _ _ _ Ha13 Hb15) as Pa13b15.
  pose proof (mul_range _ _ _ Ha13 Hb7) as Pa13b7.
  pose proof (mul_range _ _ _ Ha14 Hb14) as Pa14b14.
  pose proof (mul_range _ _ _ Ha14 Hb6) as Pa14b6.
  pose proof (mul_range _ _ _ Ha15 Hb13) as Pa15b13.
  pose proof (mul_range _ _ _ Ha15 Hb5) as Pa15b5.
  pose proof (mul_range _ _ _ Ha2 Hb10) as Pa2b10.
  pose proof (mul_range _ _ _ Ha3 Hb9) as Pa3b9.
  pose proof (mul_range _ _ _ Ha4 Hb8) as Pa4b8.
  pose proof (mul_range _ _ _ Ha5 Hb15) as Pa5b15.
  pose proof (mul_range _ _ _ Ha5 Hb7) as Pa5b7.
  pose proof (mul_range _ _ _ Ha6 Hb14) as Pa6b14.
  pose proof (mul_range _ _ _ Ha6 Hb6) as Pa6b6.
  pose proof (mul_range _ _ _ Ha7 Hb13) as Pa7b13.
  pose proof (mul_range _ _ _ Ha7 Hb5) as Pa7b5.
  pose proof (mul_range _ _ _ Ha8 Hb12) as Pa8b12.
  pose proof (mul_range _ _ _ Ha8 Hb4) as Pa8b4.
  pose proof (mul_range _ _ _ Ha9 Hb11) as Pa9b11.
  pose proof (mul_range _ _ _ Ha9 Hb3) as Pa9b3.
  unfold col1_4. clear - Pa0b12 Pa1b11 Pa10b10 Pa10b2 Pa11b1 Pa11b9 Pa12b0 Pa12b8 Pa13b15 Pa13b7 Pa14b14 Pa14b6 Pa15b13 Pa15b5 Pa2b10 Pa3b9 Pa4b8 Pa5b15 Pa5b7 Pa6b14 Pa6b6 Pa7b13 Pa7b5 Pa8b12 Pa8b4 Pa9b11 Pa9b3.
  set (M := LOOSE * LOOSE) in *. clearbody M.
  lia.
Qed.
Lemma col1_5_bd : forall a0 a1 a2 a3 a4 a5 a6 a7 a8 a9 a10 a11 a12 a13 a14 a15 b0 b1 b2 b3 b4 b5 b6 b7 b8 b9 b10 b11 b12 b13 b14 b15,
  bn_le LOOSE (BN a0 a1 a2 a3 a4 a5 a6 a7 a8 a9 a10 a11 a12 a13 a14 a15) -> bn_le LOOSE (BN b0 b1 b2 b3 b4 b5 b6 b7 b8 b9 b10 b11 b12 b13 b14 b15) ->
  0 <= col1_5 a0 a1 a2 a3 a4 a5 a6 a7 a8 a9 a10 a11 a12 a13 a14 a15 b0 b1 b2 b3 b4 b5 b6 b7 b8 b9 b10 b11 b12 b13 b14 b15 <= 38 * (LOOSE * LOOSE).
Proof.
  unfold bn_le. intros a0 a1 a2 a3 a4 a5 a6 a7 a8 a9 a10 a11 a12 a13 a14 a15 b0 b1 b2 b3 b4 b5 b6 b7 b8 b9 b10 b11 b12 b13 b14 b15 (Ha0 & Ha1 & Ha2 & Ha3 & Ha4 & Ha5 & Ha6 & Ha7 & Ha8 & Ha9 & Ha10 & Ha11 & Ha12 & Ha13 & Ha14 & Ha15) (Hb0 & Hb1 & Hb2 & Hb3 & Hb4 & Hb5 & Hb6 & Hb7 & Hb8 & Hb9 & Hb10 & Hb11 & Hb12 & Hb13 & Hb14 & Hb15).
  pose proof (mul_range _ _ _ Ha0 Hb13) as Pa0b13.
  pose proof (mul_range _ _ _ Ha1 Hb12) as Pa1b12.
  pose proof (mul_range _ _ _ Ha10 Hb11) as Pa10b11.
  pose proof (mul_range _ _ _ Ha10 Hb3) as Pa10b3.
  pose proof (mul_range _ _ _ Ha11 Hb10) as Pa11b10.
  pose proof (mul_range _ _ _ Ha11 Hb2) as Pa11b2.
  pose proof (mul_range _ _ _ Ha12 Hb1) as Pa12b1.
  pose proof (mul_range _ _ _ Ha12 Hb9) as Pa12b9.
  pose proof (mul_range _ _ _ Ha13 Hb0) as Pa13b0.
  pose proof (mul_range _ _ _ Ha13 Hb8) as Pa13b8.
  pose proof (mul_range _ _ _ Ha14 Hb15) as Pa14b15.
  pose proof (mul_range _ _ _ Ha14 Hb7) as Pa14b7.
  pose proof (mul_range _ _ _ Ha15 Hb14) as Pa15b14.
  pose proof (mul_range _ _ _ Ha15 Hb6) as Pa15b6.
  pose proof (mul_range _ _ _ Ha2 Hb11) as Pa2b11.
  pose proof (mul_range _ _ _ Ha3 Hb10) as Pa3b10.
  pose proof (mul_range _ _ _ Ha4 Hb9) as Pa4b9.
  pose proof (mul_range _ _ _ Ha5 Hb8) as Pa5b8.
  pose proof (mul_range _ _ _ Ha6 Hb15) as Pa6b15.
  pose proof (mul_range _ _ _ Ha6 Hb7) as Pa6b7.
  pose proof (mul_range _ _ _ Ha7 Hb14) as Pa7b14.
  pose proof (mul_range _ _ _ Ha7 Hb6) as Pa7b6.
  pose proof (mul_range _ _ _ Ha8 Hb13) as Pa8b13.
  pose proof (mul_range _ _ _ Ha8 Hb5) as Pa8b5.
  pose proof (mul_range _ _ _ Ha9 Hb12) as Pa9b12.
  pose proof (mul_range _ _ _ Ha9 Hb4) as Pa9b4.
  unfold col1_5. clear - Pa0b13 Pa1b12 Pa10b11 Pa10b3 Pa11b10 Pa11b2 Pa12b1 Pa12b9 Pa13b0 Pa13b8 Pa14b15 Pa14b7 Pa15b14 Pa15b6 Pa2b11 Pa3b10 Pa4b9 Pa5b8 Pa6b15 Pa6b7 Pa7b14 Pa7b6 Pa8b13 Pa8b5 Pa9b12 Pa9b4.
  set (M := LOOSE * LOOSE) in *. clearbody M.
  lia.
Qed.
Lemma col1_6_bd : forall a0 a1 a2 a3 a4 a5 a6 a7 a8 a9 a10 a11 a12 a13 a14 a15 b0 b1 b2 b3 b4 b5 b6 b7 b8 b9 b10 b11 b12 b13 b14 b15,
  bn_le LOOSE (BN a0 a1 a2 a3 a4 a5 a6 a7 a8 a9 a10 a11 a12 a13 a14 a15) -> bn_le LOOSE (BN b0 b1 b2 b3 b4 b5 b6 b7 b8 b9 b10 b11 b12 b13 b14 b15) ->
  0 <= col1_6 a0 a1 a2 a3 a4 a5 a6 a7 a8 a9 a10 a11 a12 a13 a14 a15 b0 b1 b2 b3 b4 b5 b6 b7 b8 b9 b10 b11 b12 b13 b14 b15 <= 38 * (LOOSE * LOOSE).
Proof.
  unfold bn_le. intros a0 a1 a2 a3 a4 a5 a6 a7 a8 a9 a10 a11 a12 a13 a14 a15 b0 b1 b2 b3 b4 b5 b6 b7 b8 b9 b10 b11 b12 b13 b14 b15 (Ha0 & Ha1 & Ha2 & Ha3 & Ha4 & Ha5 & Ha6 & Ha7 & Ha8 & Ha9 & Ha10 & Ha11 & Ha12 & Ha13 & Ha14 & Ha15) (Hb0 & Hb1 & Hb2 & Hb3 & Hb4 & Hb5 & Hb6 & Hb7 & Hb8 & Hb9 & Hb10 & Hb11 & Hb12 & Hb13 & Hb14 & Hb15).
  pose proof (mul_range _ _ _ Ha0 Hb14) as Pa0b14.
  pose proof (mul_range _ _ _ Ha1 Hb13) as Pa1b13.
  pose proof (mul_range _ _ _ Ha10 Hb12) as Pa10b12.
  pose proof (mul_range _ _ _ Ha10 Hb4) as Pa10b4.
  pose proof (mul_range _ _ _ Ha11 Hb11) as Pa11b11.
  pose proof (mul_range _ _ _ Ha11 Hb3) as Pa11b3.
  pose proof (mul_range _ _ _ Ha12 Hb10) as Pa12b10.
  pose proof (mul_range _ _ _ Ha12 Hb2) as Pa12b2.
  pose proof (mul_range _ _ _ Ha13 Hb1) as Pa13b1.
  pose proof (mul_range _ _ _ Ha13 Hb9) as Pa13b9.
  pose proof (mul_range _ _ _ Ha14 Hb0) as Pa14b0.
  pose proof (mul_range _ _ _ Ha14 Hb8) as Pa14b8.
  pose proof (mul_range _ _ _ Ha15 Hb15) as Pa15b15.
  pose proof (mul_range _ _ _ Ha15 Hb7) as Pa15b7.
  pose proof (mul_range _ _ _ Ha2 Hb12) as Pa2b12.
  pose proof (mul_range _ _ _ Ha3 Hb11) as Pa3b11.
  pose proof (mul_range _ _ _ Ha4 Hb10) as Pa4b10.
  pose proof (mul_range _ _ _ Ha5 Hb9) as Pa5b9.
  pose proof (mul_range _ _ _ Ha6 Hb8) as Pa6b8.
  pose proof (mul_range _ _ _ Ha7 Hb15) as Pa7b15.
  pose proof (mul_range _ _ _ Ha7 Hb7) as Pa7b7.
  pose proof (mul_range _ _ _ Ha8 Hb14) as Pa8b14.
  pose proof (mul_range _ _ _ Ha8 Hb6) as Pa8b6.
  pose proof (mul_range _ _ _ Ha9 Hb13) as Pa9b13.
  pose proof (mul_range _ _ _ Ha9 Hb5) as Pa9b5.
  unfold col1_6. clear - Pa0b14 Pa1b13 Pa10b12 Pa10b4 Pa11b11 Pa11b3 Pa12b10 Pa12b2 Pa13b1 Pa13b9 Pa14b0 Pa14b8 Pa15b15 Pa15b7 Pa2b12 Pa3b11 Pa4b10 Pa5b9 Pa6b8 Pa7b15 Pa7b7 Pa8b14 Pa8b6 Pa9b13 Pa9b5.
  set (M := LOOSE * LOOSE) in *. clearbody M.
  lia.
Qed.
Lemma col1_7_bd : forall a0 a1 a2 a3 a4 a5 a6 a7 a8 a9 a10 a11 a12 a13 a14 a15 b0 b1 b2 b3 b4 b5 b6 b7 b8 b9 b10 b11 b12 b13 b14 b15,
  bn_le LOOSE (BN a0 a1 a2 a3 a4 a5 a6 a7 a8 a9 a10 a11 a12 a13 a14 a15) -> bn_le LOOSE (BN b0 b1 b2 b3 b4 b5 b6 b7 b8 b9 b10 b11 b12 b13 b14 b15) ->
  0 <= col1_7 a0 a1 a2 a3 a4 a5 a6 a7 a8 a9 a10 a11 a12 a13 a14 a15 b0 b1 b2 b3 b4 b5 b6 b7 b8 b9 b10 b11 b12 b13 b14 b15 <= 38 * (LOOSE * LOOSE).
Proof.
  unfold bn_le. intros a0 a1 a2 a3 a4 a5 a6 a7 a8 a9 a10 a11 a12 a13 a14 a15 b0 b1 b2 b3 b4 b5 b6 b7 b8 b9 b10 b11 b12 b13 b14 b15 (Ha0 & Ha1 & Ha2 & Ha3 & Ha4 & Ha5 & Ha6 & Ha7 & Ha8 & Ha9 & Ha10 & Ha11 & Ha12 & Ha13 & Ha14 & Ha15) (Hb0 & Hb1 & Hb2 & Hb3 & Hb4 & Hb5 & Hb6 & Hb7 & Hb8 & Hb9 & Hb10 & Hb11 & Hb12 & Hb13 & Hb14 & Hb15).
  pose proof (mul_range _ _ _ Ha0 Hb15) as Pa0b15.
  pose proof (mul_range _ _ _ Ha1 Hb14) as Pa1b14.
  pose proof (mul_range _ _ _ Ha10 Hb13) as Pa10b13.
  pose proof (mul_range _ _ _ Ha10 Hb5) as Pa10b5.
  pose proof (mul_range _ _ _ Ha11 Hb12) as Pa11b12.
  pose proof (mul_range _ _ _ Ha11 Hb4) as Pa11b4.
  pose proof (mul_range _ _ _ Ha12 Hb11) as Pa12b11.
  pose proof (mul_range _ _ _ Ha12 Hb3) as Pa12b3.
  pose proof (mul_range _ _ _ Ha13 Hb10) as Pa13b10.
  pose proof (mul_range _ _ _ Ha13 Hb2) as Pa13b2.
  pose proof (mul_range _ _ _ Ha14 Hb1) as Pa14b1.
  pose proof (mul_range _ _ _ Ha14 Hb9) as Pa14b9.
  pose proof (mul_range _ _ _ Ha15 Hb0) as Pa15b0.
  pose proof (mul_range _ _ _ Ha15 Hb8) as Pa15b8.
  pose proof (mul_range _ _ _ Ha2 Hb13) as Pa2b13.
  pose proof (mul_range _ _ _ Ha3 Hb12) as Pa3b12.
  pose proof (mul_range _ _ _ Ha4 Hb11) as Pa4b11.
  pose proof (mul_range _ _ _ Ha5 Hb10) as Pa5b10.
  pose proof (mul_range _ _ _ Ha6 Hb9) as Pa6b9.
  pose proof (mul_range _ _ _ Ha7 Hb8) as Pa7b8.
  pose proof (mul_range _ _ _ Ha8 Hb15) as Pa8b15.
  pose proof (mul_range _ _ _ Ha8 Hb7) as Pa8b7.
  pose proof (mul_range _ _ _ Ha9 Hb14) as Pa9b14.
  pose proof (mul_range _ _ _ Ha9 Hb6) as Pa9b6.
  unfold col1_7. clear - Pa0b15 Pa1b14 Pa10b13 Pa10b5 Pa11b12 Pa11b4 Pa12b11 Pa12b3 Pa13b10 Pa13b2 Pa14b1 Pa14b9 Pa15b0 Pa15b8 Pa2b13 Pa3b12 Pa4b11 Pa5b10 Pa6b9 Pa7b8 Pa8b15 Pa8b7 Pa9b14 Pa9b6.
  set (M := LOOSE * LOOSE) in *. clearbody M.
  lia.
Qed.
Definition karatsuba_mul_L (a : bn) (b : bn) : bn :=
  let '(BN a0 a1 a2 a3 a4 a5 a6 a7 a8 a9 a10 a11 a12 a13 a14 a15) := a in
  let '(BN b0 b1 b2 b3 b4 b5 b6 b7 b8 b9 b10 b11 b12 b13 b14 b15) := b in
  dlet aa0 := wadd64 a0 a8 in
  dlet bb0 := wadd64 b0 b8 in
  dlet aa1 := wadd64 a1 a9 in
  dlet bb1 := wadd64 b1 b9 in
  dlet aa2 := wadd64 a2 a10 in
  dlet bb2 := wadd64 b2 b10 in
  dlet aa3 := wadd64 a3 a11 in
  dlet bb3 := wadd64 b3 b11 in
  dlet aa4 := wadd64 a4 a12 in
  dlet bb4 := wadd64 b4 b12 in
  dlet aa5 := wadd64 a5 a13 in
  dlet bb5 := wadd64 b5 b13 in
  dlet aa6 := wadd64 a6 a14 in
  dlet bb6 := wadd64 b6 b14 in
  dlet aa7 := wadd64 a7 a15 in
  dlet bb7 := wadd64 b7 b15 in
  dlet z2 := a0 * b0 in
  dlet z1 := wmul64 aa0 bb0 in
  dlet z1 := wsub64 z1 z2 in
  dlet z0 := a8 * b8 in
  dlet z0 := wadd64 z0 z2 in
  dlet z2 := 0 in
  dlet z2 := wadd64 z2 (wmul64 aa7 bb1) in
  dlet z2 := wadd64 z2 (wmul64 aa6 bb2) in
  dlet z2 := wadd64 z2 (wmul64 aa5 bb3) in
  dlet z2 := wadd64 z2 (wmul64 aa4 bb4) in
  dlet z2 := wadd64 z2 (wmul64 aa3 bb5) in
  dlet z2 := wadd64 z2 (wmul64 aa2 bb6) in
  dlet z2 := wadd64 z2 (wmul64 aa1 bb7) in
  dlet z1 := wadd64 z1 (a15 * b9) in
  dlet z1 := wadd64 z1 (a14 * b10) in
  dlet z1 := wadd64 z1 (a13 * b11) in
  dlet z1 := wadd64 z1 (a12 * b12) in
  dlet z1 := wadd64 z1 (a11 * b13) in
  dlet z1 := wadd64 z1 (a10 * b14) in
  dlet z1 := wadd64 z1 (a9 * b15) in
  dlet z1 := wadd64 z1 z2 in
  dlet z0 := wsub64 z0 (a7 * b1) in
  dlet z0 := wsub64 z0 (a6 * b2) in
  dlet z0 := wsub64 z0 (a5 * b3) in
  dlet z0 := wsub64 z0 (a4 * b4) in
  dlet z0 := wsub64 z0 (a3 * b5) in
  dlet z0 := wsub64 z0 (a2 * b6) in
  dlet z0 := wsub64 z0 (a1 * b7) in
  dlet z0 := wadd64 z0 z2 in
  dlet c0 := Z.land (wrap32 z0) RADIX_MASK in
  dlet c8 := Z.land (wrap32 z1) RADIX_MASK in
  dlet z0 := Z.shiftr z0 28 in
  dlet z1 := Z.shiftr z1 28 in
  dlet z2 := 0 in
  dlet z2 := wadd64 z2 (a1 * b0) in
  dlet z2 := wadd64 z2 (a0 * b1) in
  dlet z1 := wadd64 z1 (wmul64 aa1 bb0) in
  dlet z1 := wadd64 z1 (wmul64 aa0 bb1) in
  dlet z1 := wsub64 z1 z2 in
  dlet z0 := wadd64 z0 (a9 * b8) in
  dlet z0 := wadd64 z0 (a8 * b9) in
  dlet z0 := wadd64 z0 z2 in
  dlet z2 := 0 in
  dlet z2 := wadd64 z2 (wmul64 aa7 bb2) in
  dlet z2 := wadd64 z2 (wmul64 aa6 bb3) in
  dlet z2 := wadd64 z2 (wmul64 aa5 bb4) in
  dlet z2 := wadd64 z2 (wmul64 aa4 bb5) in
  dlet z2 := wadd64 z2 (wmul64 aa3 bb6) in
  dlet z2 := wadd64 z2 (wmul64 aa2 bb7) in
  dlet z1 := wadd64 z1 (a15 * b10) in
  dlet z1 := wadd64 z1 (a14 * b11) in
  dlet z1 := wadd64 z1 (a13 * b12) in
  dlet z1 := wadd64 z1 (a12 * b13) in
  dlet z1 := wadd64 z1 (a11 * b14) in
  dlet z1 := wadd64 z1 (a10 * b15) in
  dlet z1 := wadd64 z1 z2 in
  dlet z0 := wsub64 z0 (a7 * b2) in
  dlet z0 := wsub64 z0 (a6 * b3) in
  dlet z0 := wsub64 z0 (a5 * b4) in
  dlet z0 := wsub64 z0 (a4 * b5) in
  dlet z0 := wsub64 z0 (a3 * b6) in
  dlet z0 := wsub64 z0 (a2 * b7) in
  dlet z0 := wadd64 z0 z2 in
  dlet c1 := Z.land (wrap32 z0) RADIX_MASK in
  dlet c9 := Z.land (wrap32 z1) RADIX_MASK in
  dlet z0 := Z.shiftr z0 28 in
  dlet z1 := Z.shiftr z1 28 in
  dlet z2 := 0 in
  dlet z2 := wadd64 z2 (a2 * b0) in
  dlet z2 := wadd64 z2 (a1 * b1) in
  dlet z2 := wadd64 z2 (a0 * b2) in
  dlet z1 := wadd64 z1 (wmul64 aa2 bb0) in
  dlet z1 := wadd64 z1 (wmul64 aa1 bb1) in
  dlet z1 := wadd64 z1 (wmul64 aa0 bb2) in
  dlet z1 := wsub64 z1 z2 in
  dlet z0 := wadd64 z0 (a10 * b8) in
  dlet z0 := wadd64 z0 (a9 * b9) in
  dlet z0 := wadd64 z0 (a8 * b10) in
  dlet z0 := wadd64 z0 z2 in
  dlet z2 := 0 in
  dlet z2 := wadd64 z2 (wmul64 aa7 bb3) in
  dlet z2 := wadd64 z2 (wmul64 aa6 bb4) in
  dlet z2 := wadd64 z2 (wmul64 aa5 bb5) in
  dlet z2 := wadd64 z2 (wmul64 aa4 bb6) in
  dlet z2 := wadd64 z2 (wmul64 aa3 bb7) in
  dlet z1 := wadd64 z1 (a15 * b11) in
  dlet z1 := wadd64 z1 (a14 * b12) in
  dlet z1 := wadd64 z1 (a13 * b13) in
  dlet z1 := wadd64 z1 (a12 * b14) in
  dlet z1 := wadd64 z1 (a11 * b15) in
  dlet z1 := wadd64 z1 z2 in
  dlet z0 := wsub64 z0 (a7 * b3) in
  dlet z0 := wsub64 z0 (a6 * b4) in
  dlet z0 := wsub64 z0 (a5 * b5) in
  dlet z0 := wsub64 z0 (a4 * b6) in
  dlet z0 := wsub64 z0 (a3 * b7) in
  dlet z0 := wadd64 z0 z2 in
  dlet c2 := Z.land (wrap32 z0) RADIX_MASK in
  dlet c10 := Z.land (wrap32 z1) RADIX_MASK in
  dlet z0 := Z.shiftr z0 28 in
  dlet z1 := Z.shiftr z1 28 in
  dlet z2 := 0 in
  dlet z2 := wadd64 z2 (a3 * b0) in
  dlet z2 := wadd64 z2 (a2 * b1) in
  dlet z2 := wadd64 z2 (a1 * b2) in
  dlet z2 := wadd64 z2 (a0 * b3) in
  dlet z1 := wadd64 z1 (wmul64 aa3 bb0) in
  dlet z1 := wadd64 z1 (wmul64 aa2 bb1) in
  dlet z1 := wadd64 z1 (wmul64 aa1 bb2) in
  dlet z1 := wadd64 z1 (wmul64 aa0 bb3) in
  dlet z1 := wsub64 z1 z2 in
  dlet z0 := wadd64 z0 (a11 * b8) in
  dlet z0 := wadd64 z0 (a10 * b9) in
  dlet z0 := wadd64 z0 (a9 * b10) in
  dlet z0 := wadd64 z0 (a8 * b11) in
  dlet z0 := wadd64 z0 z2 in
  dlet z2 := 0 in
  dlet z2 := wadd64 z2 (wmul64 aa7 bb4) in
  dlet z2 := wadd64 z2 (wmul64 aa6 bb5) in
  dlet z2 := wadd64 z2 (wmul64 aa5 bb6) in
  dlet z2 := wadd64 z2 (wmul64 aa4 bb7) in
  dlet z0 := wsub64 z0 (a7 * b4) in
  dlet z0 := wsub64 z0 (a6 * b5) in
  dlet z0 := wsub64 z0 (a5 * b6) in
  dlet z0 := wsub64 z0 (a4 * b7) in
  dlet z0 := wadd64 z0 z2 in
  dlet z1 := wadd64 z1 (a15 * b12) in
  dlet z1 := wadd64 z1 (a14 * b13) in
  dlet z1 := wadd64 z1 (a13 * b14) in
  dlet z1 := wadd64 z1 (a12 * b15) in
  dlet z1 := wadd64 z1 z2 in
  dlet c3 := Z.land (wrap32 z0) RADIX_MASK in
  dlet c11 := Z.land (wrap32 z1) RADIX_MASK in
  dlet z0 := Z.shiftr z0 28 in
  dlet z1 := Z.shiftr z1 28 in
  dlet z2 := 0 in
  dlet z2 := wadd64 z2 (a4 * b0) in
  dlet z2 := wadd64 z2 (a3 * b1) in
  dlet z2 := wadd64 z2 (a2 * b2) in
  dlet z2 := wadd64 z2 (a1 * b3) in
  dlet z2 := wadd64 z2 (a0 * b4) in
  dlet z1 := wadd64 z1 (wmul64 aa4 bb0) in
  dlet z1 := wadd64 z1 (wmul64 aa3 bb1) in
  dlet z1 := wadd64 z1 (wmul64 aa2 bb2) in
  dlet z1 := wadd64 z1 (wmul64 aa1 bb3) in
  dlet z1 := wadd64 z1 (wmul64 aa0 bb4) in
  dlet z1 := wsub64 z1 z2 in
  dlet z0 := wadd64 z0 (a12 * b8) in
  dlet z0 := wadd64 z0 (a11 * b9) in
  dlet z0 := wadd64 z0 (a10 * b10) in
  dlet z0 := wadd64 z0 (a9 * b11) in
  dlet z0 := wadd64 z0 (a8 * b12) in
  dlet z0 := wadd64 z0 z2 in
  dlet z2 := 0 in
  dlet z2 := wadd64 z2 (wmul64 aa7 bb5) in
  dlet z2 := wadd64 z2 (wmul64 aa6 bb6) in
  dlet z2 := wadd64 z2 (wmul64 aa5 bb7) in
  dlet z1 := wadd64 z1 (a15 * b13) in
  dlet z1 := wadd64 z1 (a14 * b14) in
  dlet z1 := wadd64 z1 (a13 * b15) in
  dlet z1 := wadd64 z1 z2 in
  dlet z0 := wsub64 z0 (a7 * b5) in
  dlet z0 := wsub64 z0 (a6 * b6) in
  dlet z0 := wsub64 z0 (a5 * b7) in
  dlet z0 := wadd64 z0 z2 in
  dlet c4 := Z.land (wrap32 z0) RADIX_MASK in
  dlet c12 := Z.land (wrap32 z1) RADIX_MASK in
  dlet z0 := Z.shiftr z0 28 in
  dlet z1 := Z.shiftr z1 28 in
  dlet z2 := 0 in
  dlet z2 := wadd64 z2 (a5 * b0) in
  dlet z2 := wadd64 z2 (a4 * b1) in
  dlet z2 := wadd64 z2 (a3 * b2) in
  dlet z2 := wadd64 z2 (a2 * b3) in
  dlet z2 := wadd64 z2 (a1 * b4) in
  dlet z2 := wadd64 z2 (a0 * b5) in
  dlet z1 := wadd64 z1 (wmul64 aa5 bb0) in
  dlet z1 := wadd64 z1 (wmul64 aa4 bb1) in
  dlet z1 := wadd64 z1 (wmul64 aa3 bb2) in
  dlet z1 := wadd64 z1 (wmul64 aa2 bb3) in
  dlet z1 := wadd64 z1 (wmul64 aa1 bb4) in
  dlet z1 := wadd64 z1 (wmul64 aa0 bb5) in
  dlet z1 := wsub64 z1 z2 in
  dlet z0 := wadd64 z0 (a13 * b8) in
  dlet z0 := wadd64 z0 (a12 * b9) in
  dlet z0 := wadd64 z0 (a11 * b10) in
  dlet z0 := wadd64 z0 (a10 * b11) in
  dlet z0 := wadd64 z0 (a9 * b12) in
  dlet z0 := wadd64 z0 (a8 * b13) in
  dlet z0 := wadd64 z0 z2 in
  dlet z2 := 0 in
  dlet z2 := wadd64 z2 (wmul64 aa7 bb6) in
  dlet z2 := wadd64 z2 (wmul64 aa6 bb7) in
  dlet z1 := wadd64 z1 (a15 * b14) in
  dlet z1 := wadd64 z1 (a14 * b15) in
  dlet z1 := wadd64 z1 z2 in
  dlet z0 := wsub64 z0 (a7 * b6) in
  dlet z0 := wsub64 z0 (a6 * b7) in
  dlet z0 := wadd64 z0 z2 in
  dlet c5 := Z.land (wrap32 z0) RADIX_MASK in
  dlet c13 := Z.land (wrap32 z1) RADIX_MASK in
  dlet z0 := Z.shiftr z0 28 in
  dlet z1 := Z.shiftr z1 28 in
  dlet z2 := 0 in
  dlet z2 := wadd64 z2 (a6 * b0) in
  dlet z2 := wadd64 z2 (a5 * b1) in
  dlet z2 := wadd64 z2 (a4 * b2) in
  dlet z2 := wadd64 z2 (a3 * b3) in
  dlet z2 := wadd64 z2 (a2 * b4) in
  dlet z2 := wadd64 z2 (a1 * b5) in
  dlet z2 := wadd64 z2 (a0 * b6) in
  dlet z1 := wadd64 z1 (wmul64 aa6 bb0) in
  dlet z1 := wadd64 z1 (wmul64 aa5 bb1) in
  dlet z1 := wadd64 z1 (wmul64 aa4 bb2) in
  dlet z1 := wadd64 z1 (wmul64 aa3 bb3) in
  dlet z1 := wadd64 z1 (wmul64 aa2 bb4) in
  dlet z1 := wadd64 z1 (wmul64 aa1 bb5) in
  dlet z1 := wadd64 z1 (wmul64 aa0 bb6) in
  dlet z1 := wsub64 z1 z2 in
  dlet z0 := wadd64 z0 (a14 * b8) in
  dlet z0 := wadd64 z0 (a13 * b9) in
  dlet z0 := wadd64 z0 (a12 * b10) in
  dlet z0 := wadd64 z0 (a11 * b11) in
  dlet z0 := wadd64 z0 (a10 * b12) in
  dlet z0 := wadd64 z0 (a9 * b13) in
  dlet z0 := wadd64 z0 (a8 * b14) in
  dlet z0 := wadd64 z0 z2 in
  dlet z2 := 0 in
  dlet z2 := wadd64 z2 (wmul64 aa7 bb7) in
  dlet z1 := wadd64 z1 (a15 * b15) in
  dlet z1 := wadd64 z1 z2 in
  dlet z0 := wsub64 z0 (a7 * b7) in
  dlet z0 := wadd64 z0 z2 in
  dlet c6 := Z.land (wrap32 z0) RADIX_MASK in
  dlet c14 := Z.land (wrap32 z1) RADIX_MASK in
  dlet z0 := Z.shiftr z0 28 in
  dlet z1 := Z.shiftr z1 28 in
  dlet z2 := 0 in
  dlet z2 := wadd64 z2 (a7 * b0) in
  dlet z2 := wadd64 z2 (a6 * b1) in
  dlet z2 := wadd64 z2 (a5 * b2) in
  dlet z2 := wadd64 z2 (a4 * b3) in
  dlet z2 := wadd64 z2 (a3 * b4) in
  dlet z2 := wadd64 z2 (a2 * b5) in
  dlet z2 := wadd64 z2 (a1 * b6) in
  dlet z2 := wadd64 z2 (a0 * b7) in
  dlet z1 := wadd64 z1 (wmul64 aa7 bb0) in
  dlet z1 := wadd64 z1 (wmul64 aa6 bb1) in
  dlet z1 := wadd64 z1 (wmul64 aa5 bb2) in
  dlet z1 := wadd64 z1 (wmul64 aa4 bb3) in
  dlet z1 := wadd64 z1 (wmul64 aa3 bb4) in
  dlet z1 := wadd64 z1 (wmul64 aa2 bb5) in
  dlet z1 := wadd64 z1 (wmul64 aa1 bb6) in
  dlet z1 := wadd64 z1 (wmul64 aa0 bb7) in
  dlet z1 := wsub64 z1 z2 in
  dlet z0 := wadd64 z0 (a15 * b8) in
  dlet z0 := wadd64 z0 (a14 * b9) in
  dlet z0 := wadd64 z0 (a13 * b10) in
  dlet z0 := wadd64 z0 (a12 * b11) in
  dlet z0 := wadd64 z0 (a11 * b12) in
  dlet z0 := wadd64 z0 (a10 * b13) in
  dlet z0 := wadd64 z0 (a9 * b14) in
  dlet z0 := wadd64 z0 (a8 * b15) in
  dlet z0 := wadd64 z0 z2 in
  dlet z2 := 0 in
  dlet z1 := wadd64 z1 z2 in
  dlet z0 := wadd64 z0 z2 in
  dlet c7 := Z.land (wrap32 z0) RADIX_MASK in
  dlet c15 := Z.land (wrap32 z1) RADIX_MASK in
  dlet z0 := Z.shiftr z0 28 in
  dlet z1 := Z.shiftr z1 28 in
  dlet z0 := wadd64 z0 z1 in
  dlet z0 := wadd64 z0 c8 in
  dlet z1 := wadd64 z1 c0 in
  dlet c8 := Z.land (wrap32 z0) RADIX_MASK in
  dlet c0 := Z.land (wrap32 z1) RADIX_MASK in
  dlet z0 := Z.shiftr z0 28 in
  dlet z1 := Z.shiftr z1 28 in
  dlet c9 := wadd32 c9 (wrap32 z0) in
  dlet c1 := wadd32 c1 (wrap32 z1) in
  BN c0 c1 c2 c3 c4 c5 c6 c7 c8 c9 c10 c11 c12 c13 c14 c15.

Lemma karatsuba_mul_L_eq : forall a b, karatsuba_mul a b = karatsuba_mul_L a b.
Proof. intros [] []. reflexivity. Qed.
Lemma karatsuba_mul_exact : forall a0 a1 a2 a3 a4 a5 a6 a7 a8 a9 a10 a11 a12 a13 a14 a15 b0 b1 b2 b3 b4 b5 b6 b7 b8 b9 b10 b11 b12 b13 b14 b15,
  bn_le LOOSE (BN a0 a1 a2 a3 a4 a5 a6 a7 a8 a9 a10 a11 a12 a13 a14 a15) -> bn_le LOOSE (BN b0 b1 b2 b3 b4 b5 b6 b7 b8 b9 b10 b11 b12 b13 b14 b15) ->
  karatsuba_mul (BN a0 a1 a2 a3 a4 a5 a6 a7 a8 a9 a10 a11 a12 a13 a14 a15) (BN b0 b1 b2 b3 b4 b5 b6 b7 b8 b9 b10 b11 b12 b13 b14 b15) = carry_chain
    (col0_0 a0 a1 a2 a3 a4 a5 a6 a7 a8 a9 a10 a11 a12 a13 a14 a15 b0 b1 b2 b3 b4 b5 b6 b7 b8 b9 b10 b11 b12 b13 b14 b15)
    (col0_1 a0 a1 a2 a3 a4 a5 a6 a7 a8 a9 a10 a11 a12 a13 a14 a15 b0 b1 b2 b3 b4 b5 b6 b7 b8 b9 b10 b11 b12 b13 b14 b15)
    (col0_2 a0 a1 a2 a3 a4 a5 a6 a7 a8 a9 a10 a11 a12 a13 a14 a15 b0 b1 b2 b3 b4 b5 b6 b7 b8 b9 b10 b11 b12 b13 b14 b15)
    (col0_3 a0 a1 a2 a3 a4 a5 a6 a7 a8 a9 a10 a11 a12 a13 a14 a15 b0 b1 b2 b3 b4 b5 b6 b7 b8 b9 b10 b11 b12 b13 b14 b15)
    (col0_4 a0 a1 a2 a3 a4 a5 a6 a7 a8 a9 a10 a11 a12 a13 a14 a15 b0 b1 b2 b3 b4 b5 b6 b7 b8 b9 b10 b11 b12 b13 b14 b15)
    (col0_5 a0 a1 a2 a3 a4 a5 a6 a7 a8 a9 a10 a11 a12 a13 a14 a15 b0 b1 b2 b3 b4 b5 b6 b7 b8 b9 b10 b11 b12 b13 b14 b15)
    (col0_6 a0 a1 a2 a3 a4 a5 a6 a7 a8 a9 a10 a11 a12 a13 a14 a15 b0 b1 b2 b3 b4 b5 b6 b7 b8 b9 b10 b11 b12 b13 b14 b15)
    (col0_7 a0 a1 a2 a3 a4 a5 a6 a7 a8 a9 a10 a11 a12 a13 a14 a15 b0 b1 b2 b3 b4 b5 b6 b7 b8 b9 b10 b11 b12 b13 b14 b15)
    (col1_0 a0 a1 a2 a3 a4 a5 a6 a7 a8 a9 a10 a11 a12 a13 a14 a15 b0 b1 b2 b3 b4 b5 b6 b7 b8 b9 b10 b11 b12 b13 b14 b15)
    (col1_1 a0 a1 a2 a3 a4 a5 a6 a7 a8 a9 a10 a11 a12 a13 a14 a15 b0 b1 b2 b3 b4 b5 b6 b7 b8 b9 b10 b11 b12 b13 b14 b15)
    (col1_2 a0 a1 a2 a3 a4 a5 a6 a7 a8 a9 a10 a11 a12 a13 a14 a15 b0 b1 b2 b3 b4 b5 b6 b7 b8 b9 b10 b11 b12 b13 b14 b15)
    (col1_3 a0 a1 a2 a3 a4 a5 a6 a7 a8 a9 a10 a11 a12 a13 a14 a15 b0 b1 b2 b3 b4 b5 b6 b7 b8 b9 b10 b11 b12 b13 b14 b15)
    (col1_4 a0 a1 a2 a3 a4 a5 a6 a7 a8 a9 a10 a11 a12 a13 a14 a15 b0 b1 b2 b3 b4 b5 b6 b7 b8 b9 b10 b11 b12 b13 b14 b15)
    (col1_5 a0 a1 a2 a3 a4 a5 a6 a7 a8 a9 a10 a11 a12 a13 a14 a15 b0 b1 b2 b3 b4 b5 b6 b7 b8 b9 b10 b11 b12 b13 b14 b15)
    (col1_6 a0 a1 a2 a3 a4 a5 a6 a7 a8 a9 a10 a11 a12 a13 a14 a15 b0 b1 b2 b3 b4 b5 b6 b7 b8 b9 b10 b11 b12 b13 b14 b15)
    (col1_7 a0 a1 a2 a3 a4 a5 a6 a7 a8 a9 a10 a11 a12 a13 a14 a15 b0 b1 b2 b3 b4 b5 b6 b7 b8 b9 b10 b11 b12 b13 b14 b15).
Proof.
  intros a0 a1 a2 a3 a4 a5 a6 a7 a8 a9 a10 a11 a12 a13 a14 a15 b0 b1 b2 b3 b4 b5 b6 b7 b8 b9 b10 b11 b12 b13 b14 b15 Ha Hb.
  pose proof (col0_0_bd _ _ _ _ _ _ _ _ _ _ _ _ _ _ _ _ _ _ _ _ _ _ _ _ _ _ _ _ _ _ _ _ Ha Hb) as Bcol0_0.
  pose proof (col0_1_bd _ _ _ _ _ _ _ _ _ _ _ _ _ _ _ _ _ _ _ _ _ _ _ _ _ _ _ _ _ _ _ _ Ha Hb) as Bcol0_1.
  pose proof (col0_2_bd _ _ _ _ _ _ _ _ _ _ _ _ _ _ _ _ _ _ _ _ _ _ _ _ _ _ _ _ _ _ _ _ Ha Hb) as Bcol0_2.
  pose proof (col0_3_bd _ _ _ _ _ _ _ _ _ _ _ _ _ _ _ _ _ _ _ _ _ _ _ _ _ _ _ _ _ _ _ _ Ha Hb) as Bcol0_3.
  pose proof (col0_4_bd _ _ _ _ _ _ _ _ _ _ _ _ _ _ _ _ _ _ _ _ _ _ _ _ _ _ _ _ _ _ _ _ Ha Hb) as Bcol0_4.
  pose proof (col0_5_bd _ _ _ _ _ _ _ _ _ _ _ _ _ _ _ _ _ _ _ _ _ _ _ _ _ _ _ _ _ _ _ _ Ha Hb) as Bcol0_5.
  pose proof (col0_6_bd _ _ _ _ _ _ _ _ _ _ _ _ _ _ _ _ _ _ _ _ _ _ _ _ _ _ _ _ _ _ _ _ Ha Hb) as Bcol0_6.
  pose proof (col0_7_bd _ _ _ _ _ _ _ _ _ _ _ _ _ _ _ _ _ _ _ _ _ _ _ _ _ _ _ _ _ _ _ _ Ha Hb) as Bcol0_7.
  pose proof (col1_0_bd _ _ _ _ _ _ _ _ _ _ _ _ _ _ _ _ _ _ _ _ _ _ _ _ _ _ _ _ _ _ _ _ Ha Hb) as Bcol1_0.
  pose proof (col1_1_bd _ _ _ _ _ _ _ _ _ _ _ _ _ _ _ _ _ _ _ _ _ _ _ _ _ _ _ _ _ _ _ _ Ha Hb) as Bcol1_1.
  pose proof (col1_2_bd _ _ _ _ _ _ _ _ _ _ _ _ _ _ _ _ _ _ _ _ _ _ _ _ _ _ _ _ _ _ _ _ Ha Hb) as Bcol1_2.
  pose proof (col1_3_bd _ _ _ _ _ _ _ _ _ _ _ _ _ _ _ _ _ _ _ _ _ _ _ _ _ _ _ _ _ _ _ _ Ha Hb) as Bcol1_3.
  pose proof (col1_4_bd _ _ _ _ _ _ _ _ _ _ _ _ _ _ _ _ _ _ _ _ _ _ _ _ _ _ _ _ _ _ _ _ Ha Hb) as Bcol1_4.
  pose proof (col1_5_bd _ _ _ _ _ _ _ _ _ _ _ _ _ _ _ _ _ _ _ _ _ _ _ _ _ _ _ _ _ _ _ _ Ha Hb) as Bcol1_5.
  pose proof (col1_6_bd _ _ _ _ _ _ _ _ _ _ _ _ _ _ _ _ _ _ _ _ _ _ _ _ _ _ _ _ _ _ _ _ Ha Hb) as Bcol1_6.
  pose proof (col1_7_bd _ _ _ _ _ _ _ _ _ _ _ _ _ _ _ _ _ _ _ _ _ _ _ _ _ _ _ _ _ _ _ _ Ha Hb) as Bcol1_7.
  clear Ha Hb. unfold LOOSE in *.
  rewrite karatsuba_mul_L_eq. cbv beta iota delta [karatsuba_mul_L].
  remember (col0_0 a0 a1 a2 a3 a4 a5 a6 a7 a8 a9 a10 a11 a12 a13 a14 a15 b0 b1 b2 b3 b4 b5 b6 b7 b8 b9 b10 b11 b12 b13 b14 b15) as s0 eqn:Es0. rewrite col0_0_eq in Es0.
  remember (col0_1 a0 a1 a2 a3 a4 a5 a6 a7 a8 a9 a10 a11 a12 a13 a14 a15 b0 b1 b2 b3 b4 b5 b6 b7 b8 b9 b10 b11 b12 b13 b14 b15) as s1 eqn:Es1. rewrite col0_1_eq in Es1.
  remember (col0_2 a0 a1 a2 a3 a4 a5 a6 a7 a8 a9 a10 a11 a12 a13 a14 a15 b0 b1 b2 b3 b4 b5 b6 b7 b8 b9 b10 b11 b12 b13 b14 b15) as s2 eqn:Es2. rewrite col0_2_eq in Es2.
  remember (col0_3 a0 a1 a2 a3 a4 a5 a6 a7 a8 a9 a10 a11 a12 a13 a14 a15 b0 b1 b2 b3 b4 b5 b6 b7 b8 b9 b10 b11 b12 b13 b14 b15) as s3 eqn:Es3. rewrite col0_3_eq in Es3.
  remember (col0_4 a0 a1 a2 a3 a4 a5 a6 a7 a8 a9 a10 a11 a12 a13 a14 a15 b0 b1 b2 b3 b4 b5 b6 b7 b8 b9 b10 b11 b12 b13 b14 b15) as s4 eqn:Es4. rewrite col0_4_eq in Es4.
  remember (col0_5 a0 a1 a2 a3 a4 a5 a6 a7 a8 a9 a10 a11 a12 a13 a14 a15 b0 b1 b2 b3 b4 b5 b6 b7 b8 b9 b10 b11 b12 b13 b14 b15) as s5 eqn:Es5. rewrite col0_5_eq in Es5.
  remember (col0_6 a0 a1 a2 a3 a4 a5 a6 a7 a8 a9 a10 a11 a12 a13 a14 a15 b0 b1 b2 b3 b4 b5 b6 b7 b8 b9 b10 b11 b12 b13 b14 b15) as s6 eqn:Es6. rewrite col0_6_eq in Es6.
  remember (col0_7 a0 a1 a2 a3 a4 a5 a6 a7 a8 a9 a10 a11 a12 a13 a14 a15 b0 b1 b2 b3 b4 b5 b6 b7 b8 b9 b10 b11 b12 b13 b14 b15) as s7 eqn:Es7. rewrite col0_7_eq in Es7.
  remember (col1_0 a0 a1 a2 a3 a4 a5 a6 a7 a8 a9 a10 a11 a12 a13 a14 a15 b0 b1 b2 b3 b4 b5 b6 b7 b8 b9 b10 b11 b12 b13 b14 b15) as t0 eqn:Et0. rewrite col1_0_eq in Et0.
  remember (col1_1 a0 a1 a2 a3 a4 a5 a6 a7 a8 a9 a10 a11 a12 a13 a14 a15 b0 b1 b2 b3 b4 b5 b6 b7 b8 b9 b10 b11 b12 b13 b14 b15) as t1 eqn:Et1. rewrite col1_1_eq in Et1.
  remember (col1_2 a0 a1 a2 a3 a4 a5 a6 a7 a8 a9 a10 a11 a12 a13 a14 a15 b0 b1 b2 b3 b4 b5 b6 b7 b8 b9 b10 b11 b12 b13 b14 b15) as t2 eqn:Et2. rewrite col1_2_eq in Et2.
  remember (col1_3 a0 a1 a2 a3 a4 a5 a6 a7 a8 a9 a10 a11 a12 a13 a14 a15 b0 b1 b2 b3 b4 b5 b6 b7 b8 b9 b10 b11 b12 b13 b14 b15) as t3 eqn:Et3. rewrite col1_3_eq in Et3.
  remember (col1_4 a0 a1 a2 a3 a4 a5 a6 a7 a8 a9 a10 a11 a12 a13 a14 a15 b0 b1 b2 b3 b4 b5 b6 b7 b8 b9 b10 b11 b12 b13 b14 b15) as t4 eqn:Et4. rewrite col1_4_eq in Et4.
  remember (col1_5 a0 a1 a2 a3 a4 a5 a6 a7 a8 a9 a10 a11 a12 a13 a14 a15 b0 b1 b2 b3 b4 b5 b6 b7 b8 b9 b10 b11 b12 b13 b14 b15) as t5 eqn:Et5. rewrite col1_5_eq in Et5.
  remember (col1_6 a0 a1 a2 a3 a4 a5 a6 a7 a8 a9 a10 a11 a12 a13 a14 a15 b0 b1 b2 b3 b4 b5 b6 b7 b8 b9 b10 b11 b12 b13 b14 b15) as t6 eqn:Et6. rewrite col1_6_eq in Et6.
  remember (col1_7 a0 a1 a2 a3 a4 a5 a6 a7 a8 a9 a10 a11 a12 a13 a14 a15 b0 b1 b2 b3 b4 b5 b6 b7 b8 b9 b10 b11 b12 b13 b14 b15) as t7 eqn:Et7. rewrite col1_7_eq in Et7.
  stm aa0_1 Haa0_1.
  stm bb0_1 Hbb0_1.
  stm aa1_1 Haa1_1.
  stm bb1_1 Hbb1_1.
  stm aa2_1 Haa2_1.
  stm bb2_1 Hbb2_1.
  stm aa3_1 Haa3_1.
  stm bb3_1 Hbb3_1.
  stm aa4_1 Haa4_1.
  stm bb4_1 Hbb4_1.
  stm aa5_1 Haa5_1.
  stm bb5_1 Hbb5_1.
  stm aa6_1 Haa6_1.
  stm bb6_1 Hbb6_1.
  stm aa7_1 Haa7_1.
  stm bb7_1 Hbb7_1.
  stm z2_1 Hz2_1.
  stm z1_1 Hz1_1.
  stm z1_2 Hz1_2.
  stm z0_1 Hz0_1.
  stm z0_2 Hz0_2.
  ste z2_2 Hz2_2. subst z2_2.
  stm z2_3 Hz2_3.
  stm z2_4 Hz2_4.
  stm z2_5 Hz2_5.
  stm z2_6 Hz2_6.
  stm z2_7 Hz2_7.
  stm z2_8 Hz2_8.
  stm z2_9 Hz2_9.
  stm z1_3 Hz1_3.
  stm z1_4 Hz1_4.
  stm z1_5 Hz1_5.
  stm z1_6 Hz1_6.
  stm z1_7 Hz1_7.
  stm z1_8 Hz1_8.
  stm z1_9 Hz1_9.
  stx z1_10 Hz1_10 Rz1_10.
  assert (Xz1_10 : z1_10 = t0).
  { apply eqm_exact with (1 := Hz1_10); [ rewrite Et0; ring | exact Rz1_10 | clear - Bcol1_0; lia ]. }
  clear Hz1_10 Et0.
  stm z0_3 Hz0_3.
  stm z0_4 Hz0_4.
  stm z0_5 Hz0_5.
  stm z0_6 Hz0_6.
  stm z0_7 Hz0_7.
  stm z0_8 Hz0_8.
  stm z0_9 Hz0_9.
  stx z0_10 Hz0_10 Rz0_10.
  assert (Xz0_10 : z0_10 = s0).
  { apply eqm_exact with (1 := Hz0_10); [ rewrite Es0; ring | exact Rz0_10 | clear - Bcol0_0; lia ]. }
  clear Hz0_10 Es0.
  ste c0_1 Hc0_1. rewrite mask_wrap32 in Hc0_1.
  ste c8_1 Hc8_1. rewrite mask_wrap32 in Hc8_1.
  ste z0_11 Hz0_11. rewrite shr28 in Hz0_11.
  assert (Bz0_11 : 0 <= z0_11 <= 2 ^ 36) by (rewrite Hz0_11, Xz0_10; clear - Bcol0_0; apply carry_bd; lia).
  ste z1_11 Hz1_11. rewrite shr28 in Hz1_11.
  assert (Bz1_11 : 0 <= z1_11 <= 2 ^ 36) by (rewrite Hz1_11, Xz1_10; clear - Bcol1_0; apply carry_bd; lia).
  ste z2_10 Hz2_10. subst z2_10.
  stm z2_11 Hz2_11.
  stm z2_12 Hz2_12.
  stm z1_12 Hz1_12.
  stm z1_13 Hz1_13.
  stm z1_14 Hz1_14.
  stm z0_12 Hz0_12.
  stm z0_13 Hz0_13.
  stm z0_14 Hz0_14.
  ste z2_13 Hz2_13. subst z2_13.
  stm z2_14 Hz2_14.
  stm z2_15 Hz2_15.
  stm z2_16 Hz2_16.
  stm z2_17 Hz2_17.
  stm z2_18 Hz2_18.
  stm z2_19 Hz2_19.
  stm z1_15 Hz1_15.
  stm z1_16 Hz1_16.
  stm z1_17 Hz1_17.
  stm z1_18 Hz1_18.
  stm z1_19 Hz1_19.
  stm z1_20 Hz1_20.
  stx z1_21 Hz1_21 Rz1_21.
  assert (Xz1_21 : z1_21 = t1 + z1_11).
  { apply eqm_exact with (1 := Hz1_21); [ rewrite Et1; ring | exact Rz1_21 | clear - Bcol1_1 Bz1_11; lia ]. }
  clear Hz1_21 Et1.
  stm z0_15 Hz0_15.
  stm z0_16 Hz0_16.
  stm z0_17 Hz0_17.
  stm z0_18 Hz0_18.
  stm z0_19 Hz0_19.
  stm z0_20 Hz0_20.
  stx z0_21 Hz0_21 Rz0_21.
  assert (Xz0_21 : z0_21 = s1 + z0_11).
  { apply eqm_exact with (1 := Hz0_21); [ rewrite Es1; ring | exact Rz0_21 | clear - Bcol0_1 Bz0_11; lia ]. }
  clear Hz0_21 Es1.
  ste c1_1 Hc1_1. rewrite mask_wrap32 in Hc1_1.
  ste c9_1 Hc9_1. rewrite mask_wrap32 in Hc9_1.
  ste z0_22 Hz0_22. rewrite shr28 in Hz0_22.
  assert (Bz0_22 : 0 <= z0_22 <= 2 ^ 36) by (rewrite Hz0_22, Xz0_21; clear - Bcol0_1 Bz0_11; apply carry_bd; lia).
  ste z1_22 Hz1_22. rewrite shr28 in Hz1_22.
  assert (Bz1_22 : 0 <= z1_22 <= 2 ^ 36) by (rewrite Hz1_22, Xz1_21; clear - Bcol1_1 Bz1_11; apply carry_bd; lia).
  ste z2_20 Hz2_20. subst z2_20.
  stm z2_21 Hz2_21.
  stm z2_22 Hz2_22.
  stm z2_23 Hz2_23.
  stm z1_23 Hz1_23.
  stm z1_24 Hz1_24.
  stm z1_25 Hz1_25.
  stm z1_26 Hz1_26.
  stm z0_23 Hz0_23.
  stm z0_24 Hz0_24.
  stm z0_25 Hz0_25.
  stm z0_26 Hz0_26.
  ste z2_24 Hz2_24. subst z2_24.
  stm z2_25 Hz2_25.
  stm z2_26 Hz2_26.
  stm z2_27 Hz2_27.
  stm z2_28 Hz2_28.
  stm z2_29 Hz2_29.
  stm z1_27 Hz1_27.
  stm z1_28 Hz1_28.
  stm z1_29 Hz1_29.
  stm z1_30 Hz1_30.
  stm z1_31 Hz1_31.
  stx z1_32 Hz1_32 Rz1_32.
  assert (Xz1_32 : z1_32 = t2 + z1_22).
  { apply eqm_exact with (1 := Hz1_32); [ rewrite Et2; ring | exact Rz1_32 | clear - Bcol1_2 Bz1_22; lia ]. }
  clear Hz1_32 Et2.
  stm z0_27 Hz0_27.
  stm z0_28 Hz0_28.
  stm z0_29 Hz0_29.
  stm z0_30 Hz0_30.
  stm z0_31 Hz0_31.
  stx z0_32 Hz0_32 Rz0_32.
  assert (Xz0_32 : z0_32 = s2 + z0_22).
  { apply eqm_exact with (1 := Hz0_32); [ rewrite Es2; ring | exact Rz0_32 | clear - Bcol0_2 Bz0_22; lia ]. }
  clear Hz0_32 Es2.
  ste c2_1 Hc2_1. rewrite mask_wrap32 in Hc2_1.
  ste c10_1 Hc10_1. rewrite mask_wrap32 in Hc10_1.
  ste z0_33 Hz0_33. rewrite shr28 in Hz0_33.
  assert (Bz0_33 : 0 <= z0_33 <= 2 ^ 36) by (rewrite Hz0_33, Xz0_32; clear - Bcol0_2 Bz0_22; apply carry_bd; lia).
  ste z1_33 Hz1_33. rewrite shr28 in Hz1_33.
  assert (Bz1_33 : 0 <= z1_33 <= 2 ^ 36) by (rewrite Hz1_33, Xz1_32; clear - Bcol1_2 Bz1_22; apply carry_bd; lia).
  ste z2_30 Hz2_30. subst z2_30.
  stm z2_31 Hz2_31.
  stm z2_32 Hz2_32.
  stm z2_33 Hz2_33.
  stm z2_34 Hz2_34.
  stm z1_34 Hz1_34.
  stm z1_35 Hz1_35.
  stm z1_36 Hz1_36.
  stm z1_37 Hz1_37.
  stm z1_38 Hz1_38.
  stm z0_34 Hz0_34.
  stm z0_35 Hz0_35.
  stm z0_36 Hz0_36.
  stm z0_37 Hz0_37.
  stm z0_38 Hz0_38.
  ste z2_35 Hz2_35. subst z2_35.
  stm z2_36 Hz2_36.
  stm z2_37 Hz2_37.
  stm z2_38 Hz2_38.
  stm z2_39 Hz2_39.
  stm z0_39 Hz0_39.
  stm z0_40 Hz0_40.
  stm z0_41 Hz0_41.
  stm z0_42 Hz0_42.
  stx z0_43 Hz0_43 Rz0_43.
  assert (Xz0_43 : z0_43 = s3 + z0_33).
  { apply eqm_exact with (1 := Hz0_43); [ rewrite Es3; ring | exact Rz0_43 | clear - Bcol0_3 Bz0_33; lia ]. }
  clear Hz0_43 Es3.
  stm z1_39 Hz1_39.
  stm z1_40 Hz1_40.
  stm z1_41 Hz1_41.
  stm z1_42 Hz1_42.
  stx z1_43 Hz1_43 Rz1_43.
  assert (Xz1_43 : z1_43 = t3 + z1_33).
  { apply eqm_exact with (1 := Hz1_43); [ rewrite Et3; ring | exact Rz1_43 | clear - Bcol1_3 Bz1_33; lia ]. }
  clear Hz1_43 Et3.
  ste c3_1 Hc3_1. rewrite mask_wrap32 in Hc3_1.
  ste c11_1 Hc11_1. rewrite mask_wrap32 in Hc11_1.
  ste z0_44 Hz0_44. rewrite shr28 in Hz0_44.
  assert (Bz0_44 : 0 <= z0_44 <= 2 ^ 36) by (rewrite Hz0_44, Xz0_43; clear - Bcol0_3 Bz0_33; apply carry_bd; lia).
  ste z1_44 Hz1_44. rewrite shr28 in Hz1_44.
  assert (Bz1_44 : 0 <= z1_44 <= 2 ^ 36) by (rewrite Hz1_44, Xz1_43; clear - Bcol1_3 Bz1_33; apply carry_bd; lia).
  ste z2_40 Hz2_40. subst z2_40.
  stm z2_41 Hz2_41.
  stm z2_42 Hz2_42.
  stm z2_43 Hz2_43.
  stm z2_44 Hz2_44.
  stm z2_45 Hz2_45.
  stm z1_45 Hz1_45.
  stm z1_46 Hz1_46.
  stm z1_47 Hz1_47.
  stm z1_48 Hz1_48.
  stm z1_49 Hz1_49.
  stm z1_50 Hz1_50.
  stm z0_45 Hz0_45.
  stm z0_46 Hz0_46.
  stm z0_47 Hz0_47.
  stm z0_48 Hz0_48.
  stm z0_49 Hz0_49.
  stm z0_50 Hz0_50.
  ste z2_46 Hz2_46. subst z2_46.
  stm z2_47 Hz2_47.
  stm z2_48 Hz2_48.
  stm z2_49 Hz2_49.
  stm z1_51 Hz1_51.
  stm z1_52 Hz1_52.
  stm z1_53 Hz1_53.
  stx z1_54 Hz1_54 Rz1_54.
  assert (Xz1_54 : z1_54 = t4 + z1_44).
  { apply eqm_exact with (1 := Hz1_54); [ rewrite Et4; ring | exact Rz1_54 | clear - Bcol1_4 Bz1_44; lia ]. }
  clear Hz1_54 Et4.
  stm z0_51 Hz0_51.
  stm z0_52 Hz0_52.
  stm z0_53 Hz0_53.
  stx z0_54 Hz0_54 Rz0_54.
  assert (Xz0_54 : z0_54 = s4 + z0_44).
  { apply eqm_exact with (1 := Hz0_54); [ rewrite Es4; ring | exact Rz0_54 | clear - Bcol0_4 Bz0_44; lia ]. }
  clear Hz0_54 Es4.
  ste c4_1 Hc4_1. rewrite mask_wrap32 in Hc4_1.
  ste c12_1 Hc12_1. rewrite mask_wrap32 in Hc12_1.
  ste z0_55 Hz0_55. rewrite shr28 in Hz0_55.
  assert (Bz0_55 : 0 <= z0_55 <= 2 ^ 36) by (rewrite Hz0_55, Xz0_54; clear - Bcol0_4 Bz0_44; apply carry_bd; lia).
  ste z1_55 Hz1_55. rewrite shr28 in Hz1_55.
  assert (Bz1_55 : 0 <= z1_55 <= 2 ^ 36) by (rewrite Hz1_55, Xz1_54; clear - Bcol1_4 Bz1_44; apply carry_bd; lia).
  ste z2_50 Hz2_50. subst z2_50.
  stm z2_51 Hz2_51.
  stm z2_52 Hz2_52.
  stm z2_53 Hz2_53.
  stm z2_54 Hz2_54.
  stm z2_55 Hz2_55.
  stm z2_56 Hz2_56.
  stm z1_56 Hz1_56.
  stm z1_57 Hz1_57.
  stm z1_58 Hz1_58.
  stm z1_59 Hz1_59.
  stm z1_60 Hz1_60.
  stm z1_61 Hz1_61.
  stm z1_62 Hz1_62.
  stm z0_56 Hz0_56.
  stm z0_57 Hz0_57.
  stm z0_58 Hz0_58.
  stm z0_59 Hz0_59.
  stm z0_60 Hz0_60.
  stm z0_61 Hz0_61.
  stm z0_62 Hz0_62.
  ste z2_57 Hz2_57. subst z2_57.
  stm z2_58 Hz2_58.
  stm z2_59 Hz2_59.
  stm z1_63 Hz1_63.
  stm z1_64 Hz1_64.
  stx z1_65 Hz1_65 Rz1_65.
  assert (Xz1_65 : z1_65 = t5 + z1_55).
  { apply eqm_exact with (1 := Hz1_65); [ rewrite Et5; ring | exact Rz1_65 | clear - Bcol1_5 Bz1_55; lia ]. }
  clear Hz1_65 Et5.
  stm z0_63 Hz0_63.
  stm z0_64 Hz0_64.
  stx z0_65 Hz0_65 Rz0_65.
  assert (Xz0_65 : z0_65 = s5 + z0_55).
  { apply eqm_exact with (1 := Hz0_65); [ rewrite Es5; ring | exact Rz0_65 | clear - Bcol0_5 Bz0_55; lia ]. }
  clear Hz0_65 Es5.
  ste c5_1 Hc5_1. rewrite mask_wrap32 in Hc5_1.
  ste c13_1 Hc13_1. rewrite mask_wrap32 in Hc13_1.
  ste z0_66 Hz0_66. rewrite shr28 in Hz0_66.
  assert (Bz0_66 : 0 <= z0_66 <= 2 ^ 36) by (rewrite Hz0_66, Xz0_65; clear - Bcol0_5 Bz0_55; apply carry_bd; lia).
  ste z1_66 Hz1_66. rewrite shr28 in Hz1_66.
  assert (Bz1_66 : 0 <= z1_66 <= 2 ^ 36) by (rewrite Hz1_66, Xz1_65; clear - Bcol1_5 Bz1_55; apply carry_bd; lia).
  ste z2_60 Hz2_60. subst z2_60.
  stm z2_61 Hz2_61.
  stm z2_62 Hz2_62.
  stm z2_63 Hz2_63.
  stm z2_64 Hz2_64.
  stm z2_65 Hz2_65.
  stm z2_66 Hz2_66.
  stm z2_67 Hz2_67.
  stm z1_67 Hz1_67.
  stm z1_68 Hz1_68.
  stm z1_69 Hz1_69.
  stm z1_70 Hz1_70.
  stm z1_71 Hz1_71.
  stm z1_72 Hz1_72.
  stm z1_73 Hz1_73.
  stm z1_74 Hz1_74.
  stm z0_67 Hz0_67.
  stm z0_68 Hz0_68.
  stm z0_69 Hz0_69.
  stm z0_70 Hz0_70.
  stm z0_71 Hz0_71.
  stm z0_72 Hz0_72.
  stm z0_73 Hz0_73.
  stm z0_74 Hz0_74.
  ste z2_68 Hz2_68. subst z2_68.
  stm z2_69 Hz2_69.
  stm z1_75 Hz1_75.
  stx z1_76 Hz1_76 Rz1_76.
  assert (Xz1_76 : z1_76 = t6 + z1_66).
  { apply eqm_exact with (1 := Hz1_76); [ rewrite Et6; ring | exact Rz1_76 | clear - Bcol1_6 Bz1_66; lia ]. }
  clear Hz1_76 Et6.
  stm z0_75 Hz0_75.
  stx z0_76 Hz0_76 Rz0_76.
  assert (Xz0_76 : z0_76 = s6 + z0_66).
  { apply eqm_exact with (1 := Hz0_76); [ rewrite Es6; ring | exact Rz0_76 | clear - Bcol0_6 Bz0_66; lia ]. }
  clear Hz0_76 Es6.
  ste c6_1 Hc6_1. rewrite mask_wrap32 in Hc6_1.
  ste c14_1 Hc14_1. rewrite mask_wrap32 in Hc14_1.
  ste z0_77 Hz0_77. rewrite shr28 in Hz0_77.
  assert (Bz0_77 : 0 <= z0_77 <= 2 ^ 36) by (rewrite Hz0_77, Xz0_76; clear - Bcol0_6 Bz0_66; apply carry_bd; lia).
  ste z1_77 Hz1_77. rewrite shr28 in Hz1_77.
  assert (Bz1_77 : 0 <= z1_77 <= 2 ^ 36) by (rewrite Hz1_77, Xz1_76; clear - Bcol1_6 Bz1_66; apply carry_bd; lia).
  ste z2_70 Hz2_70. subst z2_70.
  stm z2_71 Hz2_71.
  stm z2_72 Hz2_72.
  stm z2_73 Hz2_73.
  stm z2_74 Hz2_74.
  stm z2_75 Hz2_75.
  stm z2_76 Hz2_76.
  stm z2_77 Hz2_77.
  stm z2_78 Hz2_78.
  stm z1_78 Hz1_78.
  stm z1_79 Hz1_79.
  stm z1_80 Hz1_80.
  stm z1_81 Hz1_81.
  stm z1_82 Hz1_82.
  stm z1_83 Hz1_83.
  stm z1_84 Hz1_84.
  stm z1_85 Hz1_85.
  stm z1_86 Hz1_86.
  stm z0_78 Hz0_78.
  stm z0_79 Hz0_79.
  stm z0_80 Hz0_80.
  stm z0_81 Hz0_81.
  stm z0_82 Hz0_82.
  stm z0_83 Hz0_83.
  stm z0_84 Hz0_84.
  stm z0_85 Hz0_85.
  stm z0_86 Hz0_86.
  ste z2_79 Hz2_79. subst z2_79.
  stx z1_87 Hz1_87 Rz1_87.
  assert (Xz1_87 : z1_87 = t7 + z1_77).
  { apply eqm_exact with (1 := Hz1_87); [ rewrite Et7; ring | exact Rz1_87 | clear - Bcol1_7 Bz1_77; lia ]. }
  clear Hz1_87 Et7.
  stx z0_87 Hz0_87 Rz0_87.
  assert (Xz0_87 : z0_87 = s7 + z0_77).
  { apply eqm_exact with (1 := Hz0_87); [ rewrite Es7; ring | exact Rz0_87 | clear - Bcol0_7 Bz0_77; lia ]. }
  clear Hz0_87 Es7.
  ste c7_1 Hc7_1. rewrite mask_wrap32 in Hc7_1.
  ste c15_1 Hc15_1. rewrite mask_wrap32 in Hc15_1.
  ste z0_88 Hz0_88. rewrite shr28 in Hz0_88.
  assert (Bz0_88 : 0 <= z0_88 <= 2 ^ 36) by (rewrite Hz0_88, Xz0_87; clear - Bcol0_7 Bz0_77; apply carry_bd; lia).
  ste z1_88 Hz1_88. rewrite shr28 in Hz1_88.
  assert (Bz1_88 : 0 <= z1_88 <= 2 ^ 36) by (rewrite Hz1_88, Xz1_87; clear - Bcol1_7 Bz1_77; apply carry_bd; lia).
  ste z0_89 Hz0_89.
  rewrite wadd64_exact in Hz0_89 by (lia).
  ste z0_90 Hz0_90.
  rewrite wadd64_exact in Hz0_90 by (rewrite ?Hc8_1; pose proof (Z.mod_pos_bound z1_10 (2^28) eq_refl); lia).
  ste z1_89 Hz1_89.
  rewrite wadd64_exact in Hz1_89 by (rewrite ?Hc0_1; pose proof (Z.mod_pos_bound z0_10 (2^28) eq_refl); lia).
  ste c8_2 Hc8_2.
  rewrite mask_wrap32 in Hc8_2.
  ste c0_2 Hc0_2.
  rewrite mask_wrap32 in Hc0_2.
  ste z0_91 Hz0_91.
  rewrite shr28 in Hz0_91.
  ste z1_90 Hz1_90.
  rewrite shr28 in Hz1_90.
  ste c9_2 Hc9_2.
  unfold wadd32 in Hc9_2.
  ste c1_2 Hc1_2.
  unfold wadd32 in Hc1_2.
  assert (Tc9 : c9_2 = z1_21 mod 2 ^ 28 + z0_90 / 2 ^ 28).
  { rewrite Hc9_2, Hc9_1, Hz0_91. apply tail_add. rewrite Hz0_90. rewrite Hz0_89, Hc8_1. pose proof (Z.mod_pos_bound z1_10 (2^28) eq_refl). clear - Bz0_88 Bz1_88 H.  lia. }
  clear Hc9_2 Hz0_91.
  assert (Tc1 : c1_2 = z0_21 mod 2 ^ 28 + z1_89 / 2 ^ 28).
  { rewrite Hc1_2, Hc1_1, Hz1_90. apply tail_add. rewrite Hz1_89. rewrite Hc0_1. pose proof (Z.mod_pos_bound z0_10 (2^28) eq_refl). clear - Bz1_88 H.  lia. }
  clear Hc1_2 Hz1_90.
  clear - Xz1_10 Xz0_10 Xz1_21 Xz0_21 Xz1_32 Xz0_32 Xz0_43 Xz1_43 Xz1_54 Xz0_54 Xz1_65 Xz0_65 Xz1_76 Xz0_76 Xz1_87 Xz0_87 Tc9 Tc1 Hc0_1 Hc8_1 Hz0_11 Hz1_11 Hc1_1 Hc9_1 Hz0_22 Hz1_22 Hc2_1 Hc10_1 Hz0_33 Hz1_33 Hc3_1 Hc11_1 Hz0_44 Hz1_44 Hc4_1 Hc12_1 Hz0_55 Hz1_55 Hc5_1 Hc13_1 Hz0_66 Hz1_66 Hc6_1 Hc14_1 Hz0_77 Hz1_77 Hc7_1 Hc15_1 Hz0_88 Hz1_88 Hc8_2 Hc0_2 Hz0_89 Hz0_90 Hz1_89.
  unfold carry_chain. subst. reflexivity.
Qed.
Definition karatsuba_square_L (a : bn) : bn :=
  let '(BN a0 a1 a2 a3 a4 a5 a6 a7 a8 a9 a10 a11 a12 a13 a14 a15) := a in
  dlet aa0 := wadd64 a0 a8 in
  dlet aa1 := wadd64 a1 a9 in
  dlet aa2 := wadd64 a2 a10 in
  dlet aa3 := wadd64 a3 a11 in
  dlet aa4 := wadd64 a4 a12 in
  dlet aa5 := wadd64 a5 a13 in
  dlet aa6 := wadd64 a6 a14 in
  dlet aa7 := wadd64 a7 a15 in
  dlet z2 := 0 in
  dlet z2 := wadd64 z2 (wmul64 a0 a0) in
  dlet z1 := wmul64 aa0 aa0 in
  dlet z1 := wsub64 z1 z2 in
  dlet z0 := wmul64 a8 a8 in
  dlet z0 := wadd64 z0 z2 in
  dlet z2 := 0 in
  dlet z2 := wadd64 z2 (shl64 (wmul64 aa7 aa1) 1) in
  dlet z2 := wadd64 z2 (shl64 (wmul64 aa6 aa2) 1) in
  dlet z2 := wadd64 z2 (shl64 (wmul64 aa5 aa3) 1) in
  dlet z2 := wadd64 z2 (wmul64 aa4 aa4) in
  dlet z1 := wadd64 z1 (shl64 (wmul64 a15 a9) 1) in
  dlet z1 := wadd64 z1 (shl64 (wmul64 a14 a10) 1) in
  dlet z1 := wadd64 z1 (shl64 (wmul64 a13 a11) 1) in
  dlet z1 := wadd64 z1 (wmul64 a12 a12) in
  dlet z1 := wadd64 z1 z2 in
  dlet z0 := wsub64 z0 (shl64 (wmul64 a7 a1) 1) in
  dlet z0 := wsub64 z0 (shl64 (wmul64 a6 a2) 1) in
  dlet z0 := wsub64 z0 (shl64 (wmul64 a5 a3) 1) in
  dlet z0 := wsub64 z0 (wmul64 a4 a4) in
  dlet z0 := wadd64 z0 z2 in
  dlet c0 := Z.land (wrap32 z0) RADIX_MASK in
  dlet c8 := Z.land (wrap32 z1) RADIX_MASK in
  dlet z0 := Z.shiftr z0 28 in
  dlet z1 := Z.shiftr z1 28 in
  dlet z2 := shl64 (wmul64 a1 a0) 1 in
  dlet z1 := wadd64 z1 (shl64 (wmul64 aa1 aa0) 1) in
  dlet z1 := wsub64 z1 z2 in
  dlet z0 := wadd64 z0 (shl64 (wmul64 a9 a8) 1) in
  dlet z0 := wadd64 z0 z2 in
  dlet z2 := 0 in
  dlet z2 := wadd64 z2 (wmul64 aa7 aa2) in
  dlet z2 := wadd64 z2 (wmul64 aa6 aa3) in
  dlet z2 := wadd64 z2 (wmul64 aa5 aa4) in
  dlet z2 := shl64 z2 1 in
  dlet z1 := wadd64 z1 (shl64 (wmul64 a15 a10) 1) in
  dlet z1 := wadd64 z1 (shl64 (wmul64 a14 a11) 1) in
  dlet z1 := wadd64 z1 (shl64 (wmul64 a13 a12) 1) in
  dlet z1 := wadd64 z1 z2 in
  dlet z0 := wsub64 z0 (shl64 (wmul64 a7 a2) 1) in
  dlet z0 := wsub64 z0 (shl64 (wmul64 a6 a3) 1) in
  dlet z0 := wsub64 z0 (shl64 (wmul64 a5 a4) 1) in
  dlet z0 := wadd64 z0 z2 in
  dlet c1 := Z.land (wrap32 z0) RADIX_MASK in
  dlet c9 := Z.land (wrap32 z1) RADIX_MASK in
  dlet z0 := Z.shiftr z0 28 in
  dlet z1 := Z.shiftr z1 28 in
  dlet z2 := 0 in
  dlet z2 := wadd64 z2 (shl64 (wmul64 a2 a0) 1) in
  dlet z2 := wadd64 z2 (wmul64 a1 a1) in
  dlet z1 := wadd64 z1 (shl64 (wmul64 aa2 aa0) 1) in
  dlet z1 := wadd64 z1 (wmul64 aa1 aa1) in
  dlet z1 := wsub64 z1 z2 in
  dlet z0 := wadd64 z0 (shl64 (wmul64 a10 a8) 1) in
  dlet z0 := wadd64 z0 (wmul64 a9 a9) in
  dlet z0 := wadd64 z0 z2 in
  dlet z2 := 0 in
  dlet z2 := wadd64 z2 (wmul64 aa7 aa3) in
  dlet z2 := wadd64 z2 (wmul64 aa6 aa4) in
  dlet z2 := shl64 z2 1 in
  dlet z2 := wadd64 z2 (wmul64 aa5 aa5) in
  dlet z1 := wadd64 z1 (shl64 (wmul64 a15 a11) 1) in
  dlet z1 := wadd64 z1 (shl64 (wmul64 a14 a12) 1) in
  dlet z1 := wadd64 z1 (wmul64 a13 a13) in
  dlet z1 := wadd64 z1 z2 in
  dlet z0 := wsub64 z0 (shl64 (wmul64 a7 a3) 1) in
  dlet z0 := wsub64 z0 (shl64 (wmul64 a6 a4) 1) in
  dlet z0 := wsub64 z0 (wmul64 a5 a5) in
  dlet z0 := wadd64 z0 z2 in
  dlet c2 := Z.land (wrap32 z0) RADIX_MASK in
  dlet c10 := Z.land (wrap32 z1) RADIX_MASK in
  dlet z0 := Z.shiftr z0 28 in
  dlet z1 := Z.shiftr z1 28 in
  dlet z2 := 0 in
  dlet z2 := wadd64 z2 (a3 * a0) in
  dlet z2 := wadd64 z2 (a2 * a1) in
  dlet z2 := shl64 z2 1 in
  dlet z1 := wadd64 z1 (shl64 (wmul64 aa3 aa0) 1) in
  dlet z1 := wadd64 z1 (shl64 (wmul64 aa2 aa1) 1) in
  dlet z1 := wsub64 z1 z2 in
  dlet z0 := wadd64 z0 (shl64 (wmul64 a11 a8) 1) in
  dlet z0 := wadd64 z0 (shl64 (wmul64 a10 a9) 1) in
  dlet z0 := wadd64 z0 z2 in
  dlet z2 := 0 in
  dlet z2 := wadd64 z2 (shl64 (wmul64 aa7 aa4) 1) in
  dlet z2 := wadd64 z2 (shl64 (wmul64 aa6 aa5) 1) in
  dlet z0 := wsub64 z0 (shl64 (wmul64 a7 a4) 1) in
  dlet z0 := wsub64 z0 (shl64 (wmul64 a6 a5) 1) in
  dlet z0 := wadd64 z0 z2 in
  dlet z1 := wadd64 z1 (shl64 (wmul64 a15 a12) 1) in
  dlet z1 := wadd64 z1 (shl64 (wmul64 a14 a13) 1) in
  dlet z1 := wadd64 z1 z2 in
  dlet c3 := Z.land (wrap32 z0) RADIX_MASK in
  dlet c11 := Z.land (wrap32 z1) RADIX_MASK in
  dlet z0 := Z.shiftr z0 28 in
  dlet z1 := Z.shiftr z1 28 in
  dlet z2 := 0 in
  dlet z2 := wadd64 z2 (shl64 (wmul64 a4 a0) 1) in
  dlet z2 := wadd64 z2 (shl64 (wmul64 a3 a1) 1) in
  dlet z2 := wadd64 z2 (wmul64 a2 a2) in
  dlet z1 := wadd64 z1 (shl64 (wmul64 aa4 aa0) 1) in
  dlet z1 := wadd64 z1 (shl64 (wmul64 aa3 aa1) 1) in
  dlet z1 := wadd64 z1 (wmul64 aa2 aa2) in
  dlet z1 := wsub64 z1 z2 in
  dlet z0 := wadd64 z0 (shl64 (wmul64 a12 a8) 1) in
  dlet z0 := wadd64 z0 (shl64 (wmul64 a11 a9) 1) in
  dlet z0 := wadd64 z0 (wmul64 a10 a10) in
  dlet z0 := wadd64 z0 z2 in
  dlet z2 := 0 in
  dlet z2 := wadd64 z2 (shl64 (wmul64 aa7 aa5) 1) in
  dlet z2 := wadd64 z2 (wmul64 aa6 aa6) in
  dlet z1 := wadd64 z1 (shl64 (wmul64 a15 a13) 1) in
  dlet z1 := wadd64 z1 (wmul64 a14 a14) in
  dlet z1 := wadd64 z1 z2 in
  dlet z0 := wsub64 z0 (shl64 (wmul64 a7 a5) 1) in
  dlet z0 := wsub64 z0 (wmul64 a6 a6) in
  dlet z0 := wadd64 z0 z2 in
  dlet c4 := Z.land (wrap32 z0) RADIX_MASK in
  dlet c12 := Z.land (wrap32 z1) RADIX_MASK in
  dlet z0 := Z.shiftr z0 28 in
  dlet z1 := Z.shiftr z1 28 in
  dlet z2 := 0 in
  dlet z2 := wadd64 z2 (shl64 (wmul64 a5 a0) 1) in
  dlet z2 := wadd64 z2 (shl64 (wmul64 a4 a1) 1) in
  dlet z2 := wadd64 z2 (shl64 (wmul64 a3 a2) 1) in
  dlet z1 := wadd64 z1 (shl64 (wmul64 aa5 aa0) 1) in
  dlet z1 := wadd64 z1 (shl64 (wmul64 aa4 aa1) 1) in
  dlet z1 := wadd64 z1 (shl64 (wmul64 aa3 aa2) 1) in
  dlet z1 := wsub64 z1 z2 in
  dlet z0 := wadd64 z0 (shl64 (wmul64 a13 a8) 1) in
  dlet z0 := wadd64 z0 (shl64 (wmul64 a12 a9) 1) in
  dlet z0 := wadd64 z0 (shl64 (wmul64 a11 a10) 1) in
  dlet z0 := wadd64 z0 z2 in
  dlet z2 := 0 in
  dlet z2 := wadd64 z2 (shl64 (wmul64 aa7 aa6) 1) in
  dlet z1 := wadd64 z1 (shl64 (wmul64 a15 a14) 1) in
  dlet z1 := wadd64 z1 z2 in
  dlet z0 := wsub64 z0 (shl64 (a7 * a6) 1) in
  dlet z0 := wadd64 z0 z2 in
  dlet c5 := Z.land (wrap32 z0) RADIX_MASK in
  dlet c13 := Z.land (wrap32 z1) RADIX_MASK in
  dlet z0 := Z.shiftr z0 28 in
  dlet z1 := Z.shiftr z1 28 in
  dlet z2 := 0 in
  dlet z2 := wadd64 z2 (shl64 (wmul64 a6 a0) 1) in
  dlet z2 := wadd64 z2 (shl64 (wmul64 a5 a1) 1) in
  dlet z2 := wadd64 z2 (shl64 (wmul64 a4 a2) 1) in
  dlet z2 := wadd64 z2 (wmul64 a3 a3) in
  dlet z1 := wadd64 z1 (shl64 (wmul64 aa6 aa0) 1) in
  dlet z1 := wadd64 z1 (shl64 (wmul64 aa5 aa1) 1) in
  dlet z1 := wadd64 z1 (shl64 (wmul64 aa4 aa2) 1) in
  dlet z1 := wadd64 z1 (wmul64 aa3 aa3) in
  dlet z1 := wsub64 z1 z2 in
  dlet z0 := wadd64 z0 (shl64 (wmul64 a14 a8) 1) in
  dlet z0 := wadd64 z0 (shl64 (wmul64 a13 a9) 1) in
  dlet z0 := wadd64 z0 (shl64 (wmul64 a12 a10) 1) in
  dlet z0 := wadd64 z0 (wmul64 a11 a11) in
  dlet z0 := wadd64 z0 z2 in
  dlet z2 := 0 in
  dlet z2 := wadd64 z2 (wmul64 aa7 aa7) in
  dlet z1 := wadd64 z1 (wmul64 a15 a15) in
  dlet z1 := wadd64 z1 z2 in
  dlet z0 := wsub64 z0 (wmul64 a7 a7) in
  dlet z0 := wadd64 z0 z2 in
  dlet c6 := Z.land (wrap32 z0) RADIX_MASK in
  dlet c14 := Z.land (wrap32 z1) RADIX_MASK in
  dlet z0 := Z.shiftr z0 28 in
  dlet z1 := Z.shiftr z1 28 in
  dlet z2 := 0 in
  dlet z2 := wadd64 z2 (shl64 (wmul64 a7 a0) 1) in
  dlet z2 := wadd64 z2 (shl64 (wmul64 a6 a1) 1) in
  dlet z2 := wadd64 z2 (shl64 (wmul64 a5 a2) 1) in
  dlet z2 := wadd64 z2 (shl64 (wmul64 a4 a3) 1) in
  dlet z1 := wadd64 z1 (shl64 (wmul64 aa7 aa0) 1) in
  dlet z1 := wadd64 z1 (shl64 (wmul64 aa6 aa1) 1) in
  dlet z1 := wadd64 z1 (shl64 (wmul64 aa5 aa2) 1) in
  dlet z1 := wadd64 z1 (shl64 (wmul64 aa4 aa3) 1) in
  dlet z1 := wsub64 z1 z2 in
  dlet z0 := wadd64 z0 (shl64 (wmul64 a15 a8) 1) in
  dlet z0 := wadd64 z0 (shl64 (wmul64 a14 a9) 1) in
  dlet z0 := wadd64 z0 (shl64 (wmul64 a13 a10) 1) in
  dlet z0 := wadd64 z0 (shl64 (wmul64 a12 a11) 1) in
  dlet z0 := wadd64 z0 z2 in
  dlet z2 := 0 in
  dlet z1 := wadd64 z1 z2 in
  dlet z0 := wadd64 z0 z2 in
  dlet c7 := Z.land (wrap32 z0) RADIX_MASK in
  dlet c15 := Z.land (wrap32 z1) RADIX_MASK in
  dlet z0 := Z.shiftr z0 28 in
  dlet z1 := Z.shiftr z1 28 in
  dlet z0 := wadd64 z0 z1 in
  dlet z0 := wadd64 z0 c8 in
  dlet z1 := wadd64 z1 c0 in
  dlet c8 := Z.land (wrap32 z0) RADIX_MASK in
  dlet c0 := Z.land (wrap32 z1) RADIX_MASK in
  dlet z0 := Z.shiftr z0 28 in
  dlet z1 := Z.shiftr z1 28 in
  dlet c9 := wadd32 c9 (wrap32 z0) in
  dlet c1 := wadd32 c1 (wrap32 z1) in
  BN c0 c1 c2 c3 c4 c5 c6 c7 c8 c9 c10 c11 c12 c13 c14 c15.

Lemma karatsuba_square_L_eq : forall a, karatsuba_square a = karatsuba_square_L a.
Proof. intros []. reflexivity. Qed.
Lemma karatsuba_square_exact : forall a0 a1 a2 a3 a4 a5 a6 a7 a8 a9 a10 a11 a12 a13 a14 a15,
  bn_le LOOSE (BN a0 a1 a2 a3 a4 a5 a6 a7 a8 a9 a10 a11 a12 a13 a14 a15) -> 
  karatsuba_square (BN a0 a1 a2 a3 a4 a5 a6 a7 a8 a9 a10 a11 a12 a13 a14 a15) = carry_chain
    (col0_0 a0 a1 a2 a3 a4 a5 a6 a7 a8 a9 a10 a11 a12 a13 a14 a15 a0 a1 a2 a3 a4 a5 a6 a7 a8 a9 a10 a11 a12 a13 a14 a15)
    (col0_1 a0 a1 a2 a3 a4 a5 a6 a7 a8 a9 a10 a11 a12 a13 a14 a15 a0 a1 a2 a3 a4 a5 a6 a7 a8 a9 a10 a11 a12 a13 a14 a15)
    (col0_2 a0 a1 a2 a3 a4 a5 a6 a7 a8 a9 a10 a11 a12 a13 a14 a15 a0 a1 a2 a3 a4 a5 a6 a7 a8 a9 a10 a11 a12 a13 a14 a15)
    (col0_3 a0 a1 a2 a3 a4 a5 a6 a7 a8 a9 a10 a11 a12 a13 a14 a15 a0 a1 a2 a3 a4 a5 a6 a7 a8 a9 a10 a11 a12 a13 a14 a15)
    (col0_4 a0 a1 a2 a3 a4 a5 a6 a7 a8 a9 a10 a11 a12 a13 a14 a15 a0 a1 a2 a3 a4 a5 a6 a7 a8 a9 a10 a11 a12 a13 a14 a15)
    (col0_5 a0 a1 a2 a3 a4 a5 a6 a7 a8 a9 a10 a11 a12 a13 a14 a15 a0 a1 a2 a3 a4 a5 a6 a7 a8 a9 a10 a11 a12 a13 a14 a15)
    (col0_6 a0 a1 a2 a3 a4 a5 a6 a7 a8 a9 a10 a11 a12 a13 a14 a15 a0 a1 a2 a3 a4 a5 a6 a7 a8 a9 a10 a11 a12 a13 a14 a15)
    (col0_7 a0 a1 a2 a3 a4 a5 a6 a7 a8 a9 a10 a11 a12 a13 a14 a15 a0 a1 a2 a3 a4 a5 a6 a7 a8 a9 a10 a11 a12 a13 a14 a15)
    (col1_0 a0 a1 a2 a3 a4 a5 a6 a7 a8 a9 a10 a11 a12 a13 a14 a15 a0 a1 a2 a3 a4 a5 a6 a7 a8 a9 a10 a11 a12 a13 a14 a15)
    (col1_1 a0 a1 a2 a3 a4 a5 a6 a7 a8 a9 a10 a11 a12 a13 a14 a15 a0 a1 a2 a3 a4 a5 a6 a7 a8 a9 a10 a11 a12 a13 a14 a15)
    (col1_2 a0 a1 a2 a3 a4 a5 a6 a7 a8 a9 a10 a11 a12 a13 a14 a15 a0 a1 a2 a3 a4 a5 a6 a7 a8 a9 a10 a11 a12 a13 a14 a15)
    (col1_3 a0 a1 a2 a3 a4 a5 a6 a7 a8 a9 a10 a11 a12 a13 a14 a15 a0 a1 a2 a3 a4 a5 a6 a7 a8 a9 a10 a11 a12 a13 a14 a15)
    (col1_4 a0 a1 a2 a3 a4 a5 a6 a7 a8 a9 a10 a11 a12 a13 a14 a15 a0 a1 a2 a3 a4 a5 a6 a7 a8 a9 a10 a11 a12 a13 a14 a15)
    (col1_5 a0 a1 a2 a3 a4 a5 a6 a7 a8 a9 a10 a11 a12 a13 a14 a15 a0 a1 a2 a3 a4 a5 a6 a7 a8 a9 a10 a11 a12 a13 a14 a15)
    (col1_6 a0 a1 a2 a3 a4 a5 a6 a7 a8 a9 a10 a11 a12 a13 a14 a15 a0 a1 a2 a3 a4 a5 a6 a7 a8 a9 a10 a11 a12 a13 a14 a15)
    (col1_7 a0 a1 a2 a3 a4 a5 a6 a7 a8 a9 a10 a11 a12 a13 a14 a15 a0 a1 a2 a3 a4 a5 a6 a7 a8 a9 a10 a11 a12 a13 a14 a15).
Proof.
  intros a0 a1 a2 a3 a4 a5 a6 a7 a8 a9 a10 a11 a12 a13 a14 a15 Ha.
  pose proof (col0_0_bd _ _ _ _ _ _ _ _ _ _ _ _ _ _ _ _ _ _ _ _ _ _ _ _ _ _ _ _ _ _ _ _ Ha Ha) as Bcol0_0.
  pose proof (col0_1_bd _ _ _ _ _ _ _ _ _ _ _ _ _ _ _ _ _ _ _ _ _ _ _ _ _ _ _ _ _ _ _ _ Ha Ha) as Bcol0_1.
  pose proof (col0_2_bd _ _ _ _ _ _ _ _ _ _ _ _ _ _ _ _ _ _ _ _ _ _ _ _ _ _ _ _ _ _ _ _ Ha Ha) as Bcol0_2.
  pose proof (col0_3_bd _ _ _ _ _ _ _ _ _ _ _ _ _ _ _ _ _ _ _ _ _ _ _ _ _ _ _ _ _ _ _ _ Ha Ha) as Bcol0_3.
  pose proof (col0_4_bd _ _ _ _ _ _ _ _ _ _ _ _ _ _ _ _ _ _ _ _ _ _ _ _ _ _ _ _ _ _ _ _ Ha Ha) as Bcol0_4.
  pose proof (col0_5_bd _ _ _ _ _ _ _ _ _ _ _ _ _ _ _ _ _ _ _ _ _ _ _ _ _ _ _ _ _ _ _ _ Ha Ha) as Bcol0_5.
  pose proof (col0_6_bd _ _ _ _ _ _ _ _ _ _ _ _ _ _ _ _ _ _ _ _ _ _ _ _ _ _ _ _ _ _ _ _ Ha Ha) as Bcol0_6.
  pose proof (col0_7_bd _ _ _ _ _ _ _ _ _ _ _ _ _ _ _ _ _ _ _ _ _ _ _ _ _ _ _ _ _ _ _ _ Ha Ha) as Bcol0_7.
  pose proof (col1_0_bd _ _ _ _ _ _ _ _ _ _ _ _ _ _ _ _ _ _ _ _ _ _ _ _ _ _ _ _ _ _ _ _ Ha Ha) as Bcol1_0.
  pose proof (col1_1_bd _ _ _ _ _ _ _ _ _ _ _ _ _ _ _ _ _ _ _ _ _ _ _ _ _ _ _ _ _ _ _ _ Ha Ha) as Bcol1_1.
  pose proof (col1_2_bd _ _ _ _ _ _ _ _ _ _ _ _ _ _ _ _ _ _ _ _ _ _ _ _ _ _ _ _ _ _ _ _ Ha Ha) as Bcol1_2.
  pose proof (col1_3_bd _ _ _ _ _ _ _ _ _ _ _ _ _ _ _ _ _ _ _ _ _ _ _ _ _ _ _ _ _ _ _ _ Ha Ha) as Bcol1_3.
  pose proof (col1_4_bd _ _ _ _ _ _ _ _ _ _ _ _ _ _ _ _ _ _ _ _ _ _ _ _ _ _ _ _ _ _ _ _ Ha Ha) as Bcol1_4.
  pose proof (col1_5_bd _ _ _ _ _ _ _ _ _ _ _ _ _ _ _ _ _ _ _ _ _ _ _ _ _ _ _ _ _ _ _ _ Ha Ha) as Bcol1_5.
  pose proof (col1_6_bd _ _ _ _ _ _ _ _ _ _ _ _ _ _ _ _ _ _ _ _ _ _ _ _ _ _ _ _ _ _ _ _ Ha Ha) as Bcol1_6.
  pose proof (col1_7_bd _ _ _ _ _ _ _ _ _ _ _ _ _ _ _ _ _ _ _ _ _ _ _ _ _ _ _ _ _ _ _ _ Ha Ha) as Bcol1_7.
  clear Ha. unfold LOOSE in *.
  rewrite karatsuba_square_L_eq. cbv beta iota delta [karatsuba_square_L].
  remember (col0_0 a0 a1 a2 a3 a4 a5 a6 a7 a8 a9 a10 a11 a12 a13 a14 a15 a0 a1 a2 a3 a4 a5 a6 a7 a8 a9 a10 a11 a12 a13 a14 a15) as s0 eqn:Es0. rewrite col0_0_eq in Es0.
  remember (col0_1 a0 a1 a2 a3 a4 a5 a6 a7 a8 a9 a10 a11 a12 a13 a14 a15 a0 a1 a2 a3 a4 a5 a6 a7 a8 a9 a10 a11 a12 a13 a14 a15) as s1 eqn:Es1. rewrite col0_1_eq in Es1.
  remember (col0_2 a0 a1 a2 a3 a4 a5 a6 a7 a8 a9 a10 a11 a12 a13 a14 a15 a0 a1 a2 a3 a4 a5 a6 a7 a8 a9 a10 a11 a12 a13 a14 a15) as s2 eqn:Es2. rewrite col0_2_eq in Es2.
  remember (col0_3 a0 a1 a2 a3 a4 a5 a6 a7 a8 a9 a10 a11 a12 a13 a14 a15 a0 a1 a2 a3 a4 a5 a6 a7 a8 a9 a10 a11 a12 a13 a14 a15) as s3 eqn:Es3. rewrite col0_3_eq in Es3.
  remember (col0_4 a0 a1 a2 a3 a4 a5 a6 a7 a8 a9 a10 a11 a12 a13 a14 a15 a0 a1 a2 a3 a4 a5 a6 a7 a8 a9 a10 a11 a12 a13 a14 a15) as s4 eqn:Es4. rewrite col0_4_eq in Es4.
  remember (col0_5 a0 a1 a2 a3 a4 a5 a6 a7 a8 a9 a10 a11 a12 a13 a14 a15 a0 a1 a2 a3 a4 a5 a6 a7 a8 a9 a10 a11 a12 a13 a14 a15) as s5 eqn:Es5. rewrite col0_5_eq in Es5.
  remember (col0_6 a0 a1 a2 a3 a4 a5 a6 a7 a8 a9 a10 a11 a12 a13 a14 a15 a0 a1 a2 a3 a4 a5 a6 a7 a8 a9 a10 a11 a12 a13 a14 a15) as s6 eqn:Es6. rewrite col0_6_eq in Es6.
  remember (col0_7 a0 a1 a2 a3 a4 a5 a6 a7 a8 a9 a10 a11 a12 a13 a14 a15 a0 a1 a2 a3 a4 a5 a6 a7 a8 a9 a10 a11 a12 a13 a14 a15) as s7 eqn:Es7. rewrite col0_7_eq in Es7.
  remember (col1_0 a0 a1 a2 a3 a4 a5 a6 a7 a8 a9 a10 a11 a12 a13 a14 a15 a0 a1 a2 a3 a4 a5 a6 a7 a8 a9 a10 a11 a12 a13 a14 a15) as t0 eqn:Et0. rewrite col1_0_eq in Et0.
  remember (col1_1 a0 a1 a2 a3 a4 a5 a6 a7 a8 a9 a10 a11 a12 a13 a14 a15 a0 a1 a2 a3 a4 a5 a6 a7 a8 a9 a10 a11 a12 a13 a14 a15) as t1 eqn:Et1. rewrite col1_1_eq in Et1.
  remember (col1_2 a0 a1 a2 a3 a4 a5 a6 a7 a8 a9 a10 a11 a12 a13 a14 a15 a0 a1 a2 a3 a4 a5 a6 a7 a8 a9 a10 a11 a12 a13 a14 a15) as t2 eqn:Et2. rewrite col1_2_eq in Et2.
  remember (col1_3 a0 a1 a2 a3 a4 a5 a6 a7 a8 a9 a10 a11 a12 a13 a14 a15 a0 a1 a2 a3 a4 a5 a6 a7 a8 a9 a10 a11 a12 a13 a14 a15) as t3 eqn:Et3. rewrite col1_3_eq in Et3.
  remember (col1_4 a0 a1 a2 a3 a4 a5 a6 a7 a8 a9 a10 a11 a12 a13 a14 a15 a0 a1 a2 a3 a4 a5 a6 a7 a8 a9 a10 a11 a12 a13 a14 a15) as t4 eqn:Et4. rewrite col1_4_eq in Et4.
  remember (col1_5 a0 a1 a2 a3 a4 a5 a6 a7 a8 a9 a10 a11 a12 a13 a14 a15 a0 a1 a2 a3 a4 a5 a6 a7 a8 a9 a10 a11 a12 a13 a14 a15) as t5 eqn:Et5. rewrite col1_5_eq in Et5.
  remember (col1_6 a0 a1 a2 a3 a4 a5 a6 a7 a8 a9 a10 a11 a12 a13 a14 a15 a0 a1 a2 a3 a4 a5 a6 a7 a8 a9 a10 a11 a12 a13 a14 a15) as t6 eqn:Et6. rewrite col1_6_eq in Et6.
  remember (col1_7 a0 a1 a2 a3 a4 a5 a6 a7 a8 a9 a10 a11 a12 a13 a14 a15 a0 a1 a2 a3 a4 a5 a6 a7 a8 a9 a10 a11 a12 a13 a14 a15) as t7 eqn:Et7. rewrite col1_7_eq in Et7.
  stm aa0_1 Haa0_1.
  stm aa1_1 Haa1_1.
  stm aa2_1 Haa2_1.
  stm aa3_1 Haa3_1.
  stm aa4_1 Haa4_1.
  stm aa5_1 Haa5_1.
  stm aa6_1 Haa6_1.
  stm aa7_1 Haa7_1.
  ste z2_1 Hz2_1. subst z2_1.
  stm z2_2 Hz2_2.
  stm z1_1 Hz1_1.
  stm z1_2 Hz1_2.
  stm z0_1 Hz0_1.
  stm z0_2 Hz0_2.
  ste z2_3 Hz2_3. subst z2_3.
  stm z2_4 Hz2_4.
  stm z2_5 Hz2_5.
  stm z2_6 Hz2_6.
  stm z2_7 Hz2_7.
  stm z1_3 Hz1_3.
  stm z1_4 Hz1_4.
  stm z1_5 Hz1_5.
  stm z1_6 Hz1_6.
  stx z1_7 Hz1_7 Rz1_7.
  assert (Xz1_7 : z1_7 = t0).
  { apply eqm_exact with (1 := Hz1_7); [ rewrite Et0; ring | exact Rz1_7 | clear - Bcol1_0; lia ]. }
  clear Hz1_7 Et0.
  stm z0_3 Hz0_3.
  stm z0_4 Hz0_4.
  stm z0_5 Hz0_5.
  stm z0_6 Hz0_6.
  stx z0_7 Hz0_7 Rz0_7.
  assert (Xz0_7 : z0_7 = s0).
  { apply eqm_exact with (1 := Hz0_7); [ rewrite Es0; ring | exact Rz0_7 | clear - Bcol0_0; lia ]. }
  clear Hz0_7 Es0.
  ste c0_1 Hc0_1. rewrite mask_wrap32 in Hc0_1.
  ste c8_1 Hc8_1. rewrite mask_wrap32 in Hc8_1.
  ste z0_8 Hz0_8. rewrite shr28 in Hz0_8.
  assert (Bz0_8 : 0 <= z0_8 <= 2 ^ 36) by (rewrite Hz0_8, Xz0_7; clear - Bcol0_0; apply carry_bd; lia).
  ste z1_8 Hz1_8. rewrite shr28 in Hz1_8.
  assert (Bz1_8 : 0 <= z1_8 <= 2 ^ 36) by (rewrite Hz1_8, Xz1_7; clear - Bcol1_0; apply carry_bd; lia).
  stm z2_8 Hz2_8.
  stm z1_9 Hz1_9.
  stm z1_10 Hz1_10.
  stm z0_9 Hz0_9.
  stm z0_10 Hz0_10.
  ste z2_9 Hz2_9. subst z2_9.
  stm z2_10 Hz2_10.
  stm z2_11 Hz2_11.
  stm z2_12 Hz2_12.
  stm z2_13 Hz2_13.
  stm z1_11 Hz1_11.
  stm z1_12 Hz1_12.
  stm z1_13 Hz1_13.
  stx z1_14 Hz1_14 Rz1_14.
  assert (Xz1_14 : z1_14 = t1 + z1_8).
  { apply eqm_exact with (1 := Hz1_14); [ rewrite Et1; ring | exact Rz1_14 | clear - Bcol1_1 Bz1_8; lia ]. }
  clear Hz1_14 Et1.
  stm z0_11 Hz0_11.
  stm z0_12 Hz0_12.
  stm z0_13 Hz0_13.
  stx z0_14 Hz0_14 Rz0_14.
  assert (Xz0_14 : z0_14 = s1 + z0_8).
  { apply eqm_exact with (1 := Hz0_14); [ rewrite Es1; ring | exact Rz0_14 | clear - Bcol0_1 Bz0_8; lia ]. }
  clear Hz0_14 Es1.
  ste c1_1 Hc1_1. rewrite mask_wrap32 in Hc1_1.
  ste c9_1 Hc9_1. rewrite mask_wrap32 in Hc9_1.
  ste z0_15 Hz0_15. rewrite shr28 in Hz0_15.
  assert (Bz0_15 : 0 <= z0_15 <= 2 ^ 36) by (rewrite Hz0_15, Xz0_14; clear - Bcol0_1 Bz0_8; apply carry_bd; lia).
  ste z1_15 Hz1_15. rewrite shr28 in Hz1_15.
  assert (Bz1_15 : 0 <= z1_15 <= 2 ^ 36) by (rewrite Hz1_15, Xz1_14; clear - Bcol1_1 Bz1_8; apply carry_bd; lia).
  ste z2_14 Hz2_14. subst z2_14.
  stm z2_15 Hz2_15.
  stm z2_16 Hz2_16.
  stm z1_16 Hz1_16.
  stm z1_17 Hz1_17.
  stm z1_18 Hz1_18.
  stm z0_16 Hz0_16.
  stm z0_17 Hz0_17.
  stm z0_18 Hz0_18.
  ste z2_17 Hz2_17. subst z2_17.
  stm z2_18 Hz2_18.
  stm z2_19 Hz2_19.
  stm z2_20 Hz2_20.
  stm z2_21 Hz2_21.
  stm z1_19 Hz1_19.
  stm z1_20 Hz1_20.
  stm z1_21 Hz1_21.
  stx z1_22 Hz1_22 Rz1_22.
  assert (Xz1_22 : z1_22 = t2 + z1_15).
  { apply eqm_exact with (1 := Hz1_22); [ rewrite Et2; ring | exact Rz1_22 | clear - Bcol1_2 Bz1_15; lia ]. }
  clear Hz1_22 Et2.
  stm z0_19 Hz0_19.
  stm z0_20 Hz0_20.
  stm z0_21 Hz0_21.
  stx z0_22 Hz0_22 Rz0_22.
  assert (Xz0_22 : z0_22 = s2 + z0_15).
  { apply eqm_exact with (1 := Hz0_22); [ rewrite Es2; ring | exact Rz0_22 | clear - Bcol0_2 Bz0_15; lia ]. }
  clear Hz0_22 Es2.
  ste c2_1 Hc2_1. rewrite mask_wrap32 in Hc2_1.
  ste c10_1 Hc10_1. rewrite mask_wrap32 in Hc10_1.
  ste z0_23 Hz0_23. rewrite shr28 in Hz0_23.
  assert (Bz0_23 : 0 <= z0_23 <= 2 ^ 36) by (rewrite Hz0_23, Xz0_22; clear - Bcol0_2 Bz0_15; apply carry_bd; lia).
  ste z1_23 Hz1_23. rewrite shr28 in Hz1_23.
  assert (Bz1_23 : 0 <= z1_23 <= 2 ^ 36) by (rewrite Hz1_23, Xz1_22; clear - Bcol1_2 Bz1_15; apply carry_bd; lia).
  ste z2_22 Hz2_22. subst z2_22.
  stm z2_23 Hz2_23.
  stm z2_24 Hz2_24.
  stm z2_25 Hz2_25.
  stm z1_24 Hz1_24.
  stm z1_25 Hz1_25.
  stm z1_26 Hz1_26.
  stm z0_24 Hz0_24.
  stm z0_25 Hz0_25.
  stm z0_26 Hz0_26.
  ste z2_26 Hz2_26. subst z2_26.
  stm z2_27 Hz2_27.
  stm z2_28 Hz2_28.
  stm z0_27 Hz0_27.
  stm z0_28 Hz0_28.
  stx z0_29 Hz0_29 Rz0_29.
  assert (Xz0_29 : z0_29 = s3 + z0_23).
  { apply eqm_exact with (1 := Hz0_29); [ rewrite Es3; ring | exact Rz0_29 | clear - Bcol0_3 Bz0_23; lia ]. }
  clear Hz0_29 Es3.
  stm z1_27 Hz1_27.
  stm z1_28 Hz1_28.
  stx z1_29 Hz1_29 Rz1_29.
  assert (Xz1_29 : z1_29 = t3 + z1_23).
  { apply eqm_exact with (1 := Hz1_29); [ rewrite Et3; ring | exact Rz1_29 | clear - Bcol1_3 Bz1_23; lia ]. }
  clear Hz1_29 Et3.
  ste c3_1 Hc3_1. rewrite mask_wrap32 in Hc3_1.
  ste c11_1 Hc11_1. rewrite mask_wrap32 in Hc11_1.
  ste z0_30 Hz0_30. rewrite shr28 in Hz0_30.
  assert (Bz0_30 : 0 <= z0_30 <= 2 ^ 36) by (rewrite Hz0_30, Xz0_29; clear - Bcol0_3 Bz0_23; apply carry_bd; lia).
  ste z1_30 Hz1_30. rewrite shr28 in Hz1_30.
  assert (Bz1_30 : 0 <= z1_30 <= 2 ^ 36) by (rewrite Hz1_30, Xz1_29; clear - Bcol1_3 Bz1_23; apply carry_bd; lia).
  ste z2_29 Hz2_29. subst z2_29.
  stm z2_30 Hz2_30.
  stm z2_31 Hz2_31.
  stm z2_32 Hz2_32.
  stm z1_31 Hz1_31.
  stm z1_32 Hz1_32.
  stm z1_33 Hz1_33.
  stm z1_34 Hz1_34.
  stm z0_31 Hz0_31.
  stm z0_32 Hz0_32.
  stm z0_33 Hz0_33.
  stm z0_34 Hz0_34.
  ste z2_33 Hz2_33. subst z2_33.
  stm z2_34 Hz2_34.
  stm z2_35 Hz2_35.
  stm z1_35 Hz1_35.
  stm z1_36 Hz1_36.
  stx z1_37 Hz1_37 Rz1_37.
  assert (Xz1_37 : z1_37 = t4 + z1_30).
  { apply eqm_exact with (1 := Hz1_37); [ rewrite Et4; ring | exact Rz1_37 | clear - Bcol1_4 Bz1_30; lia ]. }
  clear Hz1_37 Et4.
  stm z0_35 Hz0_35.
  stm z0_36 Hz0_36.
  stx z0_37 Hz0_37 Rz0_37.
  assert (Xz0_37 : z0_37 = s4 + z0_30).
  { apply eqm_exact with (1 := Hz0_37); [ rewrite Es4; ring | exact Rz0_37 | clear - Bcol0_4 Bz0_30; lia ]. }
  clear Hz0_37 Es4.
  ste c4_1 Hc4_1. rewrite mask_wrap32 in Hc4_1.
  ste c12_1 Hc12_1. rewrite mask_wrap32 in Hc12_1.
  ste z0_38 Hz0_38. rewrite shr28 in Hz0_38.
  assert (Bz0_38 : 0 <= z0_38 <= 2 ^ 36) by (rewrite Hz0_38, Xz0_37; clear - Bcol0_4 Bz0_30; apply carry_bd; lia).
  ste z1_38 Hz1_38. rewrite shr28 in Hz1_38.
  assert (Bz1_38 : 0 <= z1_38 <= 2 ^ 36) by (rewrite Hz1_38, Xz1_37; clear - Bcol1_4 Bz1_30; apply carry_bd; lia).
  ste z2_36 Hz2_36. subst z2_36.
  stm z2_37 Hz2_37.
  stm z2_38 Hz2_38.
  stm z2_39 Hz2_39.
  stm z1_39 Hz1_39.
  stm z1_40 Hz1_40.
  stm z1_41 Hz1_41.
  stm z1_42 Hz1_42.
  stm z0_39 Hz0_39.
  stm z0_40 Hz0_40.
  stm z0_41 Hz0_41.
  stm z0_42 Hz0_42.
  ste z2_40 Hz2_40. subst z2_40.
  stm z2_41 Hz2_41.
  stm z1_43 Hz1_43.
  stx z1_44 Hz1_44 Rz1_44.
  assert (Xz1_44 : z1_44 = t5 + z1_38).
  { apply eqm_exact with (1 := Hz1_44); [ rewrite Et5; ring | exact Rz1_44 | clear - Bcol1_5 Bz1_38; lia ]. }
  clear Hz1_44 Et5.
  stm z0_43 Hz0_43.
  stx z0_44 Hz0_44 Rz0_44.
  assert (Xz0_44 : z0_44 = s5 + z0_38).
  { apply eqm_exact with (1 := Hz0_44); [ rewrite Es5; ring | exact Rz0_44 | clear - Bcol0_5 Bz0_38; lia ]. }
  clear Hz0_44 Es5.
  ste c5_1 Hc5_1. rewrite mask_wrap32 in Hc5_1.
  ste c13_1 Hc13_1. rewrite mask_wrap32 in Hc13_1.
  ste z0_45 Hz0_45. rewrite shr28 in Hz0_45.
  assert (Bz0_45 : 0 <= z0_45 <= 2 ^ 36) by (rewrite Hz0_45, Xz0_44; clear - Bcol0_5 Bz0_38; apply carry_bd; lia).
  ste z1_45 Hz1_45. rewrite shr28 in Hz1_45.
  assert (Bz1_45 : 0 <= z1_45 <= 2 ^ 36) by (rewrite Hz1_45, Xz1_44; clear - Bcol1_5 Bz1_38; apply carry_bd; lia).
  ste z2_42 Hz2_42. subst z2_42.
  stm z2_43 Hz2_43.
  stm z2_44 Hz2_44.
  stm z2_45 Hz2_45.
  stm z2_46 Hz2_46.
  stm z1_46 Hz1_46.
  stm z1_47 Hz1_47.
  stm z1_48 Hz1_48.
  stm z1_49 Hz1_49.
  stm z1_50 Hz1_50.
  stm z0_46 Hz0_46.
  stm z0_47 Hz0_47.
  stm z0_48 Hz0_48.
  stm z0_49 Hz0_49.
  stm z0_50 Hz0_50.
  ste z2_47 Hz2_47. subst z2_47.
  stm z2_48 Hz2_48.
  stm z1_51 Hz1_51.
  stx z1_52 Hz1_52 Rz1_52.
  assert (Xz1_52 : z1_52 = t6 + z1_45).
  { apply eqm_exact with (1 := Hz1_52); [ rewrite Et6; ring | exact Rz1_52 | clear - Bcol1_6 Bz1_45; lia ]. }
  clear Hz1_52 Et6.
  stm z0_51 Hz0_51.
  stx z0_52 Hz0_52 Rz0_52.
  assert (Xz0_52 : z0_52 = s6 + z0_45).
  { apply eqm_exact with (1 := Hz0_52); [ rewrite Es6; ring | exact Rz0_52 | clear - Bcol0_6 Bz0_45; lia ]. }
  clear Hz0_52 Es6.
  ste c6_1 Hc6_1. rewrite mask_wrap32 in Hc6_1.
  ste c14_1 Hc14_1. rewrite mask_wrap32 in Hc14_1.
  ste z0_53 Hz0_53. rewrite shr28 in Hz0_53.
  assert (Bz0_53 : 0 <= z0_53 <= 2 ^ 36) by (rewrite Hz0_53, Xz0_52; clear - Bcol0_6 Bz0_45; apply carry_bd; lia).
  ste z1_53 Hz1_53. rewrite shr28 in Hz1_53.
  assert (Bz1_53 : 0 <= z1_53 <= 2 ^ 36) by (rewrite Hz1_53, Xz1_52; clear - Bcol1_6 Bz1_45; apply carry_bd; lia).
  ste z2_49 Hz2_49. subst z2_49.
  stm z2_50 Hz2_50.
  stm z2_51 Hz2_51.
  stm z2_52 Hz2_52.
  stm z2_53 Hz2_53.
  stm z1_54 Hz1_54.
  stm z1_55 Hz1_55.
  stm z1_56 Hz1_56.
  stm z1_57 Hz1_57.
  stm z1_58 Hz1_58.
  stm z0_54 Hz0_54.
  stm z0_55 Hz0_55.
  stm z0_56 Hz0_56.
  stm z0_57 Hz0_57.
  stm z0_58 Hz0_58.
  ste z2_54 Hz2_54. subst z2_54.
  stx z1_59 Hz1_59 Rz1_59.
  assert (Xz1_59 : z1_59 = t7 + z1_53).
  { apply eqm_exact with (1 := Hz1_59); [ rewrite Et7; ring | exact Rz1_59 | clear - Bcol1_7 Bz1_53; lia ]. }
  clear Hz1_59 Et7.
  stx z0_59 Hz0_59 Rz0_59.
  assert (Xz0_59 : z0_59 = s7 + z0_53).
  { apply eqm_exact with (1 := Hz0_59); [ rewrite Es7; ring | exact Rz0_59 | clear - Bcol0_7 Bz0_53; lia ]. }
  clear Hz0_59 Es7.
  ste c7_1 Hc7_1. rewrite mask_wrap32 in Hc7_1.
  ste c15_1 Hc15_1. rewrite mask_wrap32 in Hc15_1.
  ste z0_60 Hz0_60. rewrite shr28 in Hz0_60.
  assert (Bz0_60 : 0 <= z0_60 <= 2 ^ 36) by (rewrite Hz0_60, Xz0_59; clear - Bcol0_7 Bz0_53; apply carry_bd; lia).
  ste z1_60 Hz1_60. rewrite shr28 in Hz1_60.
  assert (Bz1_60 : 0 <= z1_60 <= 2 ^ 36) by (rewrite Hz1_60, Xz1_59; clear - Bcol1_7 Bz1_53; apply carry_bd; lia).
  ste z0_61 Hz0_61.
  rewrite wadd64_exact in Hz0_61 by (lia).
  ste z0_62 Hz0_62.
  rewrite wadd64_exact in Hz0_62 by (rewrite ?Hc8_1; pose proof (Z.mod_pos_bound z1_7 (2^28) eq_refl); lia).
  ste z1_61 Hz1_61.
  rewrite wadd64_exact in Hz1_61 by (rewrite ?Hc0_1; pose proof (Z.mod_pos_bound z0_7 (2^28) eq_refl); lia).
  ste c8_2 Hc8_2.
  rewrite mask_wrap32 in Hc8_2.
  ste c0_2 Hc0_2.
  rewrite mask_wrap32 in Hc0_2.
  ste z0_63 Hz0_63.
  rewrite shr28 in Hz0_63.
  ste z1_62 Hz1_62.
  rewrite shr28 in Hz1_62.
  ste c9_2 Hc9_2.
  unfold wadd32 in Hc9_2.
  ste c1_2 Hc1_2.
  unfold wadd32 in Hc1_2.
  assert (Tc9 : c9_2 = z1_14 mod 2 ^ 28 + z0_62 / 2 ^ 28).
  { rewrite Hc9_2, Hc9_1, Hz0_63. apply tail_add. rewrite Hz0_62. rewrite Hz0_61, Hc8_1. pose proof (Z.mod_pos_bound z1_7 (2^28) eq_refl). clear - Bz0_60 Bz1_60 H.  lia. }
  clear Hc9_2 Hz0_63.
  assert (Tc1 : c1_2 = z0_14 mod 2 ^ 28 + z1_61 / 2 ^ 28).
  { rewrite Hc1_2, Hc1_1, Hz1_62. apply tail_add. rewrite Hz1_61. rewrite Hc0_1. pose proof (Z.mod_pos_bound z0_7 (2^28) eq_refl). clear - Bz1_60 H.  lia. }
  clear Hc1_2 Hz1_62.
  clear - Xz1_7 Xz0_7 Xz1_14 Xz0_14 Xz1_22 Xz0_22 Xz0_29 Xz1_29 Xz1_37 Xz0_37 Xz1_44 Xz0_44 Xz1_52 Xz0_52 Xz1_59 Xz0_59 Tc9 Tc1 Hc0_1 Hc8_1 Hz0_8 Hz1_8 Hc1_1 Hc9_1 Hz0_15 Hz1_15 Hc2_1 Hc10_1 Hz0_23 Hz1_23 Hc3_1 Hc11_1 Hz0_30 Hz1_30 Hc4_1 Hc12_1 Hz0_38 Hz1_38 Hc5_1 Hc13_1 Hz0_45 Hz1_45 Hc6_1 Hc14_1 Hz0_53 Hz1_53 Hc7_1 Hc15_1 Hz0_60 Hz1_60 Hc8_2 Hc0_2 Hz0_61 Hz0_62 Hz1_61.
  unfold carry_chain. subst. reflexivity.
Qed.