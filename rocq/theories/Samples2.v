(* More concrete cases for Properties.v. *)
From Coq Require Import ZArith List Bool Lia Znumtheory Ring.
From Verif Require Import SpecField SpecBytes SpecScalar SpecCurve SpecDecode SpecEd448 SpecVerify SpecInternal.
From Verif Require Import Base Bytes Errors Eddsa Goldilocks.
From Verif Require Import Field Edwards Isogeny CombMul BaseTables Decode Ed448 Order Equation Facts Witness Sound Kernel Checks Bind Samples.
Import ListNotations.
Open Scope Z_scope.

Lemma base_part : subgroup_part ebase <> ezero.
Proof. rewrite (subgroup_id ebase ebase_on base_q). exact ebase_nz. Qed.
(* public key B, constant hash: (B, 2) and (B, 2 + q) *)
Definition sig2q : list Z := eencode ebase ++ le_bytes 57 (2 + q448).
Lemma sig2q_ok : bytes sig2q /\ length sig2q = 114%nat /\ firstn 57 sig2q = eencode ebase /\ skipn 57 sig2q = le_bytes 57 (2 + q448).
Proof.
  assert (F1 : firstn 57 sig2q = eencode ebase).
  { unfold sig2q. rewrite firstn_app, eencode_len, Nat.sub_diag, firstn_O, app_nil_r. apply firstn_all2. rewrite eencode_len. apply Nat.le_refl. }
  assert (F2 : skipn 57 sig2q = le_bytes 57 (2 + q448)).
  { unfold sig2q. rewrite skipn_app, eencode_len, Nat.sub_diag, skipn_O, skipn_all2, app_nil_l by (rewrite eencode_len; apply Nat.le_refl). reflexivity. }
  split; [ unfold sig2q; apply bytes_app; split; [ apply eencode_bytes | apply le_bytes_bytes ] | ].
  split; [ unfold sig2q; rewrite app_length, eencode_len, le_bytes_length; reflexivity | ]. split; assumption.
Qed.
Lemma twoq_mod : le_val (firstn 57 (le_bytes 57 2)) mod q448 = le_val (firstn 57 (le_bytes 57 (2 + q448))) mod q448.
Proof. vm_compute. reflexivity. Qed.
Lemma two_differ : le_bytes 57 2 <> le_bytes 57 (2 + q448).
Proof. intro E. vm_compute in E. discriminate E. Qed.
Lemma twoq_nz : le_bytes 57 (2 + q448) <> repeat 0 57.
Proof. intro E. vm_compute in E. discriminate E. Qed.
Lemma unique_case : bytes (eencode ebase) /\ bytes sig2 /\ bytes sig2q /\ denotes (eencode ebase) ebase /\ denotes (firstn 57 sig2) ebase /\
  firstn 57 sig2 = firstn 57 sig2q /\ sig2 <> sig2q /\ subgroup_part ebase <> ezero /\ forall message,
  ed448_verify xof1 (eencode ebase) sig2 message = Some (Ok true) /\ ed448_verify xof1 (eencode ebase) sig2q message = Some (Ok true).
Proof.
  destruct sig2_ok as (B & L & F1 & F2). destruct sig2q_ok as (B' & L' & F1' & F2').
  split; [ apply eencode_bytes | ]. split; [ exact B | ]. split; [ exact B' | ]. split; [ apply denotes_eencode; exact ebase_on | ].
  split; [ rewrite F1; apply denotes_eencode; exact ebase_on | ]. split; [ rewrite F1, F1'; reflexivity | ].
  split; [ intro E; apply two_differ; rewrite <- F2, <- F2', E; reflexivity | ]. split; [ exact base_part | ].
  intro message. split; [ apply sig2_accepted | ]. rewrite <- (sig2_accepted message). symmetry. apply (verify_S xof1 (eencode ebase) sig2 sig2q message B B').
  - rewrite L. apply Nat.le_refl.
  - rewrite L'. apply Nat.le_refl.
  - exact sig2_nz.
  - intro E. apply twoq_nz. rewrite <- F2', E. reflexivity.
  - rewrite F1, F1'. reflexivity.
  - rewrite F2, F2'. exact twoq_mod.
Qed.
(* the neutral element as public key *)
Lemma zero_decodable : decodable (eencode ezero) /\ denotes (eencode ezero) ezero /\ subgroup_part ezero = ezero.
Proof.
  rewrite one_enc_ok. destruct three_encodings as (_ & _ & _ & D1 & _ & _ & E1 & _ & _). split; [ exact D1 | ]. split; [ exact E1 | ].
  unfold subgroup_part. apply emul_ezero.
Qed.
Lemma small_case : bytes (eencode ezero) /\ eencode ezero <> repeat 0 57 /\ decodable (eencode ezero) /\ denotes (eencode ezero) ezero /\
  subgroup_part ezero = ezero /\ decodable (eencode (emul 4 ebase)).
Proof.
  destruct zero_decodable as (D & N & S). split; [ apply eencode_bytes | ]. split; [ apply subgroup_not_zero; [ exact ezero_on | apply emul_ezero ] | ].
  split; [ exact D | ]. split; [ exact N | ]. split; [ exact S | ]. exact four_decodable.
Qed.
(* a function that answers 1 0 0 ... on short and (last byte) 0 0 ... on long inputs, so that signatures
   on messages of one byte share R and differ in the challenge *)
Definition xof2 (x : list Z) (n : nat) : list Z :=
  match n with O => [] | S m => (if Nat.ltb (length x) 100 then 1 else last x 0 mod 256) :: repeat 0 m end.
Lemma xof2_xof : is_xof xof2.
Proof.
  intro x. unfold xof2. set (v := if Nat.ltb (length x) 100 then 1 else last x 0 mod 256).
  assert (Bv : byte v). { unfold v, byte. destruct (Nat.ltb (length x) 100); [ lia | apply Z.mod_pos_bound; lia ]. }
  split.
  - intros [|m]; [ split; [ reflexivity | constructor ] | ]. split; [ cbn [length]; rewrite repeat_length; reflexivity | ].
    constructor; [ exact Bv | apply bytes_repeat0 ].
  - intros [|n] [|m] H; try reflexivity; try lia. cbn [firstn]. f_equal.
    assert (K : forall a b, (a <= b)%nat -> repeat 0 a = firstn a (repeat 0 b)).
    { induction a as [|a IH]; intros [|b] L; try reflexivity; try lia. cbn [repeat firstn]. f_equal. apply IH. lia. }
    apply K. lia.
Qed.
Lemma xof2_val : forall x n, le_val (xof2 x (S n)) = if Nat.ltb (length x) 100 then 1 else last x 0 mod 256.
Proof.
  intros x n. unfold xof2. cbn [le_val]. assert (K : forall m, le_val (repeat 0 m) = 0) by (induction m as [|m IH]; [ reflexivity | cbn [repeat le_val]; rewrite IH; reflexivity ]).
  rewrite K. ring.
Qed.
Lemma shared_case : is_xof xof2 /\ exists sig sig', ed448_derive_public xof2 key4 = Some (eencode (emul 4 ebase)) /\
  ed448_sign xof2 key4 [1] = Some sig /\ ed448_sign xof2 key4 [2] = Some sig' /\ firstn 57 sig = firstn 57 sig' /\
  rfc_challenge xof2 (firstn 57 sig) (eencode (emul 4 ebase)) [1] mod q448 = 1 /\ rfc_challenge xof2 (firstn 57 sig) (eencode (emul 4 ebase)) [2] mod q448 = 2.
Proof.
  split; [ exact xof2_xof | ]. destruct key4_ok as (L & B & S & V).
  pose proof (key4_public xof2 xof2_xof) as E1. pose proof (sign_ok xof2 xof2_xof key4 [1] L B) as E2. pose proof (sign_ok xof2 xof2_xof key4 [2] L B) as E3.
  rewrite S in E2, E3.
  assert (F : forall s p A x, length p = 57%nat -> firstn 57 (rfc_sign_with xof2 s p A [x]) = eencode ebase).
  { intros s p A x Lp. unfold rfc_sign_with. cbv zeta. rewrite firstn_app, eencode_len, Nat.sub_diag, firstn_O, app_nil_r, firstn_all2 by (rewrite eencode_len; apply Nat.le_refl).
    rewrite xof2_val. rewrite !app_length, Lp. cbn [length rfc_dom]. change (Nat.ltb (10 + (57 + 1)) 100) with true. cbv iota. rewrite emul_1. reflexivity. }
  eexists. eexists. split; [ exact E1 | ]. split; [ exact E2 | ]. split; [ exact E3 | ].
  rewrite !F by apply le_bytes_length. split; [ reflexivity | ].
  assert (C : forall x, rfc_challenge xof2 (eencode ebase) (eencode (emul 4 ebase)) [x] = x mod 256).
  { intro x. unfold rfc_challenge. rewrite xof2_val. rewrite !app_length, !eencode_len. cbn [length rfc_dom]. change (Nat.ltb (10 + (57 + (57 + 1))) 100) with false. cbv iota.
    rewrite !app_assoc, last_last. reflexivity. }
  rewrite !C. split; vm_compute; reflexivity.
Qed.
Lemma deserialize_case : length (le_bytes 56 (p448 + 1)) = 56%nat /\ bytes (le_bytes 56 (p448 + 1)) /\ limbs_upto (2 ^ 32 - 16) full.
Proof. split; [ apply le_bytes_length | ]. split; [ apply le_bytes_bytes | ]. exact (proj1 (proj2 (proj2 (proj2 full_ok)))). Qed.
Lemma curve_case : (exists p, represents p ebase) /\ carried_point far /\ carried_point off.
Proof. split; [ exact (proj1 multiplication_case) | ]. split; [ exact far_ok | exact off_ok ]. Qed.
Lemma scalar_case : words32 (repeat (2 ^ 32 - 1) 14) /\ reduced qm1 /\ bytes seed /\ (56 <= length seed)%nat.
Proof.
  split; [ split; [ reflexivity | apply Forall_forall; intros x H; apply repeat_spec in H; subst x; lia ] | ]. split; [ exact (proj1 qm1_ok) | ].
  destruct seed_ok as (L & B & _). split; [ exact B | rewrite L; lia ].
Qed.
