(* Runs of C86 which are accepted and refused. *)
From Coq Require Import ZArith List Bool Lia.
From Verif Require Import Base SpecField SpecBytes SpecScalar SpecCurve SpecDecode SpecEd448 SpecVerify SpecInternal SpecUniform SpecQueries SpecForger.
From Verif Require Import Bytes Errors Eddsa Goldilocks Game.
From Verif Require Samples Witness.
From Verif Require Import Field Edwards Isogeny CombMul BaseTables PrimeQ Decode Ed448 Order Equation Uniform Count Kernel SmallKeys Forger GameReal Complete.
Import ListNotations.
Open Scope Z_scope.
Local Opaque strings q448 ed448_verify ed448_sign ed448_derive_public emul.

(* the digest: the key of the example in the first half *)
Definition digest (key : list Z) : list Z := key ++ repeat 0 57.
Definition nonce_one : list Z := le_bytes 114 1.
Lemma bad_refused : bad_point (emul Witness.bad_scalar ebase) = true.
Proof.
  destruct (bad_point (emul Witness.bad_scalar ebase)) eqn:E; [ reflexivity | ]. exfalso. apply bad_point_ok in E.
  apply Witness.bad_undecodable. apply decodable_eencode; [ apply emul_on; exact ebase_on | exact E ].
Qed.
Lemma digest_ok : forall key, length key = 57%nat -> bytes key -> length (digest key) = 114%nat /\ bytes (digest key) /\ secret_scalar (digest key) = secret_scalar key.
Proof.
  intros key L B. unfold digest. split; [ rewrite app_length, repeat_length, L; reflexivity | ]. split; [ apply bytes_app; split; [ exact B | apply Samples.bytes_repeat0 ] | ].
  unfold secret_scalar. rewrite firstn_app, L. change (56 - 57)%nat with 0%nat. rewrite firstn_O, app_nil_r. reflexivity.
Qed.
Lemma nonce_one_ok : length nonce_one = 114%nat /\ bytes nonce_one /\ le_val nonce_one = 1.
Proof. split; [ reflexivity | ]. split; [ apply le_bytes_bytes | vm_compute; reflexivity ]. Qed.
Lemma good_nonce : bad_point (emul (le_val nonce_one) ebase) = false.
Proof. rewrite (proj2 (proj2 nonce_one_ok)), emul_1. apply bad_point_ok. exact Samples.base_tests. Qed.
Lemma good_key : bad_point (emul (secret_scalar Samples.key4) ebase) = false.
Proof.
  destruct Samples.key4_ok as (_ & _ & _ & ->). assert (E : emul (4 * q448 + 4) ebase = emul 4 ebase) by (apply base_inj; vm_compute; reflexivity).
  rewrite E. apply bad_point_ok. exact Samples.four_tests.
Qed.
Theorem cases : forall m T, bytes_table T -> In Samples.seed seeds /\ In (digest Witness.bad_key) (strings 114) /\ In (digest Samples.key4) (strings 114) /\ In nonce_one (strings 114) /\
  seed_run Samples.seed m T (digest Witness.bad_key, nonce_one) = false /\ seed_run Samples.seed m T (digest Samples.key4, nonce_one) = true /\
  In Witness.bad_key expanded /\ In Samples.key4 expanded /\
  expanded_run m T (Witness.bad_key, nonce_one) = false /\ expanded_run m T (Samples.key4, nonce_one) = true.
Proof.
  intros m T BT. destruct Samples.seed_ok as (LS & BS & ES). destruct Samples.key4_ok as (L4 & B4 & E4 & _). destruct nonce_one_ok as (L1 & B1 & V1).
  destruct (digest_ok _ L4 B4) as (LD4 & BD4 & SD4). destruct (digest_ok _ Witness.bad_key_len Witness.bad_key_bytes) as (LDb & BDb & SDb).
  split; [ apply (proj2 (seeds_in _)); split; [ exact LS | split; assumption ] | ].
  split; [ exact (proj2 (in_strings 114 _) (conj LDb BDb)) | ]. split; [ exact (proj2 (in_strings 114 _) (conj LD4 BD4)) | ]. split; [ exact (proj2 (in_strings 114 _) (conj L1 B1)) | ].
  split. { apply (proj1 (negb_true_iff _)). rewrite (seed_run_bad _ m T _ _ LS BS ES BT LDb BDb L1 B1), SDb, Witness.bad_key_scalar, bad_refused. reflexivity. }
  split. { apply (proj1 (negb_false_iff _)). rewrite (seed_run_bad _ m T _ _ LS BS ES BT LD4 BD4 L1 B1), SD4, good_key, good_nonce. reflexivity. }
  split; [ apply filter_In; split; [ exact (proj2 (in_strings 57 _) (conj Witness.bad_key_len Witness.bad_key_bytes)) | exact Witness.bad_key_sign ] | ].
  split; [ apply filter_In; split; [ exact (proj2 (in_strings 57 _) (conj L4 B4)) | exact E4 ] | ].
  split. { apply (proj1 (negb_true_iff _)). rewrite (expanded_run_bad m T _ _ BT Witness.bad_key_len Witness.bad_key_bytes Witness.bad_key_sign L1 B1), Witness.bad_key_scalar, bad_refused. reflexivity. }
  apply (proj1 (negb_false_iff _)). rewrite (expanded_run_bad m T _ _ BT L4 B4 E4 L1 B1), good_key, good_nonce. reflexivity.
Qed.
