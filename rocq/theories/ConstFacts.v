(* The constants of constants32.rs. *)
From Coq Require Import ZArith List Bool Lia.
From Verif Require Import SpecField SpecScalar SpecCurve SpecInternal Base Constants32 ScalarModel Field.
Import ListNotations.
Open Scope Z_scope.

Lemma words_ok : forall l, length l = 14%nat -> forallb (fun x => (0 <=? x) && (x <? 2 ^ 32)) l = true -> words32 l.
Proof.
  intros l L H. split; [ exact L | ]. rewrite forallb_forall in H. apply Forall_forall. intros x I. apply H in I.
  apply andb_true_iff in I. destruct I as [ I J ]. apply Z.leb_le in I. apply Z.ltb_lt in J. split; assumption.
Qed.
Theorem scalar_constants :
  words32 SCALAR_Q /\ sc SCALAR_Q = q448 /\
  reduced SCALAR_R2 /\ sc SCALAR_R2 = 2 ^ 448 * 2 ^ 448 mod q448 /\
  reduced SCALAR_ZERO /\ sc SCALAR_ZERO = 0 /\
  0 <= MONTGOMERY_FACTOR < 2 ^ 32 /\ (MONTGOMERY_FACTOR * q448) mod 2 ^ 32 = 2 ^ 32 - 1.
Proof.
  split; [ apply words_ok; reflexivity | ]. split; [ reflexivity | ].
  split; [ split; [ apply words_ok; reflexivity | reflexivity ] | ]. split; [ vm_compute; reflexivity | ].
  split; [ split; [ apply words_ok; reflexivity | reflexivity ] | ]. split; [ reflexivity | ].
  split; [ split; [ discriminate | reflexivity ] | reflexivity ].
Qed.
Theorem size_constants :
  2 ^ (SCALAR_BITS - 1) <= q448 < 2 ^ SCALAR_BITS /\ SCALAR_BITS <= SCALAR_WORDS * WORD_BITS < SCALAR_BITS + WORD_BITS /\
  SCALAR_LIMBS = SCALAR_WORDS /\ SCALAR_BITS <= 8 * SCALAR_BYTES < SCALAR_BITS + 8 /\ SCALAR_SER_BYTES = SCALAR_BYTES /\
  2 ^ (N_LIMBS * RADIX - 1) <= p448 < 2 ^ (N_LIMBS * RADIX) /\ 8 * FIELD_BYTES = N_LIMBS * RADIX /\
  SCALAR_BITS <= DECAF_COMB_NUMBER * DECAF_COMB_TEETH * DECAF_COMB_SPACING.
Proof. vm_compute. repeat (split || discriminate || reflexivity). Qed.
Theorem field_constants : mkF EDWARDS_D = ecd /\ carried BIG_ZERO /\ fe BIG_ZERO = fzero /\ carried BIG_ONE /\ fe BIG_ONE = fone.
Proof.
  assert (C : forall a, forallb (fun x => (0 <=? x) && (x <=? 1)) (limbs a) = true -> carried a).
  { intros a H. rewrite forallb_forall in H. apply Forall_forall. intros x I. apply H, andb_true_iff in I. destruct I as [ I J ].
    apply Z.leb_le in I. apply Z.leb_le in J. lia. }
  split; [ reflexivity | ]. split; [ apply C; reflexivity | ]. split; [ apply F_eq; vm_compute; reflexivity | ].
  split; [ apply C; reflexivity | apply F_eq; vm_compute; reflexivity ].
Qed.
(* MODULUS is not the modulus in the radix of the limbs, 28 bits; it is in words of alternately 24 and 32 bits *)
Theorem modulus_wrong : words_val RADIX MODULUS <> p448.
Proof. apply Z.eqb_neq. reflexivity. Qed.
Theorem modulus_packed : packed_val MODULUS = p448.
Proof. reflexivity. Qed.
