(* The functions of goldilocks.rs and eddsa.rs that the public ones are built from. *)
From Coq Require Import ZArith List Bool Lia.
From Verif Require Import SpecField SpecBytes SpecScalar SpecCurve SpecDecode SpecEd448 SpecVerify SpecInternal.
From Verif Require Import Base Bytes Errors ScalarModel ExtendedPoint Eddsa Goldilocks.
From Verif Require Samples.
From Verif Require Import Arith Decode Ed448 Internal Equation Facts TraceProofs.
Import ListNotations.
Open Scope Z_scope.

Lemma zupd_inside : forall (l l' : list Z) i v, zupd l i v = Some l' -> i < Z.of_nat (length l).
Proof. intros l l' i v. unfold zupd. destruct (Z.ltb_spec i (Z.of_nat (length l))) as [ L | L ]; [ intros _; exact L | ]. rewrite andb_false_r. discriminate. Qed.
Theorem clamp_exact : forall l, bytes l ->
  (clamp l = None <-> (length l < 57)%nat) /\
  ((57 <= length l)%nat -> clamp l = Some (le_bytes 57 (secret_scalar l) ++ skipn 57 l)).
Proof.
  intros l B. split; [ | intro L; exact (clamp_ok l L B) ]. split.
  - intro N. apply Nat.nle_gt. intro L. rewrite (clamp_ok l L B) in N. discriminate N.
  - intro L. unfold clamp. destruct (znth l 0) as [ b0 | ]; [ | reflexivity ]. rewrite bind_Some. cbv beta.
    destruct (zupd l 0 (Z.land b0 252)) as [ l1 | ] eqn:E1; [ | reflexivity ]. rewrite bind_Some. cbv beta.
    assert (L1 : length l1 = length l) by (exact (zupd_len _ _ _ _ E1)).
    destruct (zupd l1 56 0) as [ l2 | ] eqn:E2; [ | reflexivity ]. exfalso. apply zupd_inside in E2. lia.
Qed.
Theorem point_by_secret_exact : forall l, length l = 57%nat -> bytes l -> exists p m, point_by_secret l = Some p /\
  represents p (emul m ebase) /\ (4 * m) mod q448 = secret_scalar l mod q448.
Proof.
  intros l L B. destruct (point_by_secret_ok l L B) as (p & m & E & R & M & _). exists p, m. split; [ exact E | ].
  split; [ apply rep_iff; exact R | exact M ].
Qed.
Section Hash.
Variable xof : list Z -> nat -> list Z.
Hypothesis XOF : is_xof xof.
Theorem private_to_secret_exact : forall k,
  private_to_secret xof k = Some (firstn 56 (xof k 57) ++ [nth 56 (xof k 57) 0 mod 128 + 128]).
Proof.
  intro k. unfold private_to_secret, sha3. cbv zeta.
  destruct (split57 (xof k 57) (xof_len xof XOF k 57) (xof_bytes xof XOF k 57)) as (l & b & E & Hl & Bl & Bb). rewrite E.
  change 56 with (Z.of_nat 56). rewrite <- Hl. rewrite znth_app_r, bind_Some. cbv beta. rewrite zupd_app.
  rewrite firstn_app, Nat.sub_diag, firstn_O, app_nil_r, firstn_all, app_nth2, Nat.sub_diag by apply Nat.le_refl. cbn [nth].
  rewrite (proj2 (clamp_byte b Bb)). reflexivity.
Qed.
Theorem blocks : forall k message,
  private_to_public xof k = Some (rfc_public xof k) /\ sign_by_private xof k message = Some (rfc_sign xof k message) /\
  (length k = 57%nat -> bytes k ->
    secret_to_public k = Some (eencode (emul (secret_scalar k) ebase)) /\
    forall prefix, sign_with_secret_and_nonce xof k prefix message =
      Some (rfc_sign_with xof (secret_scalar k) prefix (eencode (emul (secret_scalar k) ebase)) message)).
Proof.
  intros k message. split; [ apply private_to_public_ok; exact XOF | ]. split; [ apply sign_by_private_ok; exact XOF | ].
  intros L B. split; [ apply secret_to_public_ok; assumption | ]. intro prefix. apply sign_secret_ok; assumption.
Qed.
Theorem zero_test : forall pub sig message,
  (zero_input pub sig -> ed448_verify xof pub sig message = Some (Err InvalidSignatureError)) /\
  (~ zero_input pub sig -> ed448_verify xof pub sig message = dsa_verify xof pub sig message).
Proof.
  intros pub sig message. unfold ed448_verify. destruct (bytes_eqb pub zero_public_key || bytes_eqb sig zero_signature) eqn:Z.
  - split; [ reflexivity | ]. intro N. exfalso. apply N. apply zero_input_dec. exact Z.
  - split; [ | reflexivity ]. intro H. apply zero_input_dec in H. congruence.
Qed.
End Hash.
Lemma blocks_case : length Samples.seed = 57%nat /\ bytes Samples.seed /\ ~ zero_input Samples.seed [] /\ zero_input (repeat 0 57) [].
Proof.
  destruct Samples.seed_ok as (L & B & _). split; [ exact L | ]. split; [ exact B | ]. split; [ | left; reflexivity ].
  intros [ Z | Z ]; [ | discriminate Z ]. apply (f_equal (fun l => nth 1 l 0)) in Z. vm_compute in Z. discriminate Z.
Qed.
