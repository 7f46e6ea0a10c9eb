(* Concrete cases for the theorems of CostProofs.v. *)
From Coq Require Import ZArith List Bool.
From Verif Require Import SpecBytes SpecCurve SpecEd448 SpecDecode Base Errors Goldilocks Samples Samples4.
Import ListNotations.
Open Scope Z_scope.

Lemma verify_case : is_xof xof1 /\ bytes sig2 /\ ed448_verify xof1 (eencode ebase) sig2 [] = Some (Ok true).
Proof.
  destruct linear_case as (_ & B & _ & _ & _ & _ & _ & _ & _ & V). split; [ exact xof1_xof | ]. split; [ exact B | exact (V []) ].
Qed.
Lemma keys_case : length seed = 57%nat /\ bytes seed /\ enc_sign seed = false /\ length key4 = 57%nat /\ bytes key4 /\ enc_sign key4 = true.
Proof.
  destruct seed_ok as (A & B & C). destruct key4_ok as (D & E & F & _). split; [ exact A | ]. split; [ exact B | ]. split; [ exact C | ].
  split; [ exact D | ]. split; [ exact E | exact F ].
Qed.
