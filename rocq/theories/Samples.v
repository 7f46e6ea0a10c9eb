(* Concrete cases that meet the hypotheses of the theorems in Properties.v. *)
From Coq Require Import ZArith List Bool Lia Znumtheory Ring Field.
From Verif Require Import SpecField SpecBytes SpecScalar SpecCurve SpecDecode SpecEd448 SpecVerify SpecHex SpecApi SpecInternal SpecShake Base Arith Bytes Constants32 BigNumber ScalarModel
  Niels Errors ExtendedPoint Eddsa Goldilocks Lib.
From Verif Require Import Field FieldOps ScalarProofs Edwards Isogeny PointOps PointMul CombMul FastF BaseTables Decode Ed448 Verify Order Equation Facts Witness Internal Sound Shake Torsion Kernel Alias Api.
Import ListNotations.
Open Scope Z_scope.

(* an extendable output function whose values are easy to follow: 1 0 0 0 ... *)
Definition xof1 (x : list Z) (n : nat) : list Z := match n with O => [] | S m => 1 :: repeat 0 m end.
Lemma bytes_repeat0 : forall n, bytes (repeat 0 n).
Proof. induction n; constructor; [ unfold byte; lia | assumption ]. Qed.
Lemma xof1_xof : is_xof xof1.
Proof.
  intro x. split.
  - intros [|m]; [ split; [ reflexivity | constructor ] | ]. unfold xof1. split; [ cbn [length]; rewrite repeat_length; reflexivity | ].
    constructor; [ unfold byte; lia | apply bytes_repeat0 ].
  - intros [|n] [|m] H; try reflexivity; try lia. unfold xof1. cbn [firstn]. f_equal.
    assert (K : forall a b, (a <= b)%nat -> repeat 0 a = firstn a (repeat 0 b)).
    { induction a as [|a IH]; intros [|b] L; try reflexivity; try lia. cbn [repeat firstn]. f_equal. apply IH. lia. }
    apply K. lia.
Qed.
Lemma xof1_val : forall x n, le_val (xof1 x (S n)) = 1.
Proof.
  intros x n. unfold xof1. cbn [le_val]. assert (K : forall m, le_val (repeat 0 m) = 0) by (induction m as [|m IH]; [ reflexivity | cbn [repeat le_val]; rewrite IH; reflexivity ]).
  rewrite K. reflexivity.
Qed.

(* the base point, its opposite shifted by the point of order 2, and 4 B are decodable *)
Lemma base_tests : decoder_tests ebase.
Proof.
  Transparent ebase. unfold decoder_tests, ebase, fst, snd. rewrite fval_mkF, denominator_mkF, low_zero_mkF. split; vm_compute; reflexivity.
Qed.
Opaque ebase.
Lemma base_decodable : decodable (eencode ebase).
Proof. apply decodable_eencode; [ exact ebase_on | exact base_tests ]. Qed.
Definition point2 : ept := (fzero, fopp fone).
Lemma point2_on : on_curve point2.
Proof. unfold on_curve, point2. ring. Qed.
Lemma point2_4 : emul 4 point2 = ezero.
Proof.
  change 4 with (2 * 2). rewrite emul_mul by exact point2_on.
  assert (E : emul 2 point2 = ezero).
  { rewrite emul_2 by exact point2_on. Transparent eadd ezero. unfold eadd, point2, ezero. 
    apply f_equal2; field; (let H := fresh in intro H; apply fone_nz; rewrite <- H; ring). }
  rewrite E. apply emul_ezero.
Qed.
Lemma shift2 : forall x y, eadd (x, y) point2 = (fopp x, fopp y).
Proof.
  intros x y. unfold eadd, point2. apply f_equal2; field; (let H := fresh in intro H; apply fone_nz; rewrite <- H; ring).
Qed.
Opaque eadd ezero.
Lemma base2_tests : decoder_tests (eadd ebase point2).
Proof.
  Transparent ebase. unfold ebase. rewrite shift2. unfold decoder_tests, fst, snd. rewrite <- !mkF_opp, fval_mkF, denominator_mkF, low_zero_mkF.
  split; vm_compute; reflexivity.
Qed.
Opaque ebase.
Lemma base2_decodable : decodable (eencode (eadd ebase point2)).
Proof. apply decodable_eencode; [ apply eadd_on; [ exact ebase_on | exact point2_on ] | exact base2_tests ]. Qed.
Definition z4 : zpt := nth 2 zall (0, 0).
Lemma four_tests : decoder_tests (emul 4 ebase).
Proof.
  pose proof (zall_ok 2 (0, 0)) as K. change (2 ^ Z.of_nat 2) with 4 in K. rewrite <- K by (apply Nat.ltb_lt; vm_compute; reflexivity).
  fold z4. destruct z4 as (x, y) eqn:E. unfold zF, decoder_tests, fst, snd. rewrite fval_mkF, denominator_mkF, low_zero_mkF.
  assert (Ex : x = fst z4) by (rewrite E; reflexivity). assert (Ey : y = snd z4) by (rewrite E; reflexivity). subst x y. clear. split; vm_compute; reflexivity.
Qed.
Lemma four_decodable : decodable (eencode (emul 4 ebase)).
Proof. apply decodable_eencode; [ apply emul_on; exact ebase_on | exact four_tests ]. Qed.

(* a key in expanded form with secret scalar 4 q + 4, so with public key 4 B *)
Definition key4 : list Z := le_bytes 56 (4 * q448 + 4) ++ [128].
Lemma key4_ok : length key4 = 57%nat /\ bytes key4 /\ enc_sign key4 = true /\ secret_scalar key4 = 4 * q448 + 4.
Proof.
  split; [ reflexivity | ]. split; [ unfold key4; apply bytes_app; split; [ apply le_bytes_bytes | repeat constructor; lia ] | ]. split; vm_compute; reflexivity.
Qed.
Lemma key4_public : forall xof, is_xof xof -> ed448_derive_public xof key4 = Some (eencode (emul 4 ebase)).
Proof.
  intros xof X. destruct key4_ok as (L & B & S & V). rewrite derive_public_ok by assumption. rewrite S, V.
  assert (E : emul (4 * q448 + 4) ebase = emul 4 ebase) by (apply base_inj; vm_compute; reflexivity). rewrite E. reflexivity.
Qed.
(* a key to be hashed: 0, 1, ..., 56 *)
Definition seed : list Z := map Z.of_nat (seq 0 57).
Lemma seed_ok : length seed = 57%nat /\ bytes seed /\ enc_sign seed = false.
Proof.
  split; [ reflexivity | ]. split; [ | reflexivity ]. apply Forall_forall. intros x H. apply in_map_iff in H. destruct H as (n & <- & H). apply in_seq in H. unfold byte. lia.
Qed.
(* with xof1, signatures by key4 are accepted *)
Lemma honest4 : forall message, exists pub sig, ed448_derive_public xof1 key4 = Some pub /\ ed448_sign xof1 key4 message = Some sig /\
  decodable pub /\ decodable (firstn 57 sig) /\ ed448_verify xof1 pub sig message = Some (Ok true).
Proof.
  intro message. destruct key4_ok as (L & B & S & V).
  pose proof (key4_public xof1 xof1_xof) as E1. pose proof (sign_ok xof1 xof1_xof key4 message L B) as E2. rewrite S in E2.
  eexists. eexists. split; [ exact E1 | ]. split; [ exact E2 | ].
  assert (D1 : decodable (eencode (emul 4 ebase))) by exact four_decodable.
  match goal with |- _ /\ decodable (firstn 57 ?s) /\ _ => assert (D2 : decodable (firstn 57 s)) end.
  { unfold rfc_sign_with. cbv zeta. rewrite firstn_app, eencode_len, Nat.sub_diag, firstn_O, app_nil_r, firstn_all2 by (rewrite eencode_len; apply Nat.le_refl).
    rewrite xof1_val, emul_1. exact base_decodable. }
  split; [ exact D1 | ]. split; [ exact D2 | ].
  apply (honest_verifies xof1 xof1_xof key4 message _ _ L B E1); [ exact E2 | split; assumption ].
Qed.

(* public key B, signature (B, 2): valid as the challenge is 1 *)
Definition sig2 : list Z := eencode ebase ++ le_bytes 57 2.
Lemma sig2_ok : bytes sig2 /\ length sig2 = 114%nat /\ firstn 57 sig2 = eencode ebase /\ skipn 57 sig2 = le_bytes 57 2.
Proof.
  assert (F1 : firstn 57 sig2 = eencode ebase).
  { unfold sig2. rewrite firstn_app, eencode_len, Nat.sub_diag, firstn_O, app_nil_r. apply firstn_all2. rewrite eencode_len. apply Nat.le_refl. }
  assert (F2 : skipn 57 sig2 = le_bytes 57 2).
  { unfold sig2. rewrite skipn_app, eencode_len, Nat.sub_diag, skipn_O, skipn_all2, app_nil_l by (rewrite eencode_len; apply Nat.le_refl). reflexivity. }
  split; [ unfold sig2; apply bytes_app; split; [ apply eencode_bytes | apply le_bytes_bytes ] | ].
  split; [ unfold sig2; rewrite app_length, eencode_len, le_bytes_length; reflexivity | ]. split; assumption.
Qed.
Lemma two_val : le_val (le_bytes 57 2) = 2.
Proof. vm_compute. reflexivity. Qed.
Lemma sig2_nz : sig2 <> repeat 0 114.
Proof.
  intro E. assert (K : skipn 57 sig2 = repeat 0 57) by (rewrite E; reflexivity). destruct sig2_ok as (_ & _ & _ & F2). rewrite F2 in K. vm_compute in K. discriminate K.
Qed.
Lemma base_q : emul q448 ebase = ezero.
Proof. apply base_order. exists 1. ring. Qed.
Lemma sig2_valid : forall message, rfc_valid xof1 (eencode ebase) sig2 message.
Proof.
  intro message. destruct sig2_ok as (_ & L & F1 & F2). exists ebase, ebase. rewrite F1, F2, two_val.
  split; [ split; [ exact ebase_on | reflexivity ] | ]. split; [ split; [ exact ebase_on | reflexivity ] | ]. split; [ exact L | ]. split; [ vm_compute; reflexivity | ].
  unfold rfc_challenge. rewrite xof1_val. unfold rfc_equation. rewrite <- emul_add by exact ebase_on. reflexivity.
Qed.
Lemma sig2_accepted : forall message, ed448_verify xof1 (eencode ebase) sig2 message = Some (Ok true).
Proof.
  intro message. destruct sig2_ok as (B & L & F1 & F2).
  apply (rfc_accepts xof1 xof1_xof (eencode ebase) sig2 message ebase); [ exact B | apply sig2_valid | split; [ exact ebase_on | reflexivity ] | exact base_q | exact sig2_nz | exact base_decodable | rewrite F1; exact base_decodable ].
Qed.
(* limbs, scalars and points *)
Definition full : bn := let m := 2 ^ 28 + 2 ^ 10 in BN m m m m m m m m m m m m m m m m.
Lemma full_ok : carried full /\ summed full /\ limbs_upto (2 ^ 32 - 1) full /\ limbs_upto (2 ^ 32 - 16) full /\ fe full <> fzero.
Proof.
  split; [ | split; [ | split; [ | split ] ] ].
  1-4: repeat constructor; vm_compute; discriminate.
  unfold fe. change fzero with (mkF 0). intro E. apply mkF_eq in E. vm_compute in E. discriminate E.
Qed.
Definition qm1 : scalar := [0xab5844f2; 0x2378c292; 0x8dc58f55; 0x216cc272; 0xaed63690; 0xc44edb49; 0x7cca23e9; 0xffffffff; 0xffffffff; 0xffffffff; 0xffffffff; 0xffffffff; 0xffffffff; 0x3fffffff].
Lemma qm1_ok : reduced qm1 /\ sc qm1 = q448 - 1.
Proof.
  split; [ split; [ split; [ reflexivity | ] | vm_compute; reflexivity ] | vm_compute; reflexivity ].
  repeat constructor; vm_compute; try discriminate; reflexivity.
Qed.
Lemma base_point : exists p, represents p ebase.
Proof.
  destruct (fixed_base SCALAR_ONE) as (p & _ & H); [ split; [ split; [ reflexivity | ] | vm_compute; reflexivity ] | ].
  - repeat constructor; vm_compute; try discriminate; reflexivity.
  - exists p. replace (sc SCALAR_ONE) with 1 in H by (vm_compute; reflexivity). rewrite emul_1 in H. exact H.
Qed.

(* the cases as Properties.v states them *)
Local Opaque decodable.
Lemma base_denotes : denotes (eencode ebase) ebase.
Proof. apply denotes_eencode. exact ebase_on. Qed.
Lemma base_not_zero : eencode ebase <> repeat 0 57.
Proof. apply subgroup_not_zero; [ exact ebase_on | exact base_q ]. Qed.
Lemma sig2_nonzero : ~ zero_input (eencode ebase) sig2.
Proof. intros [H|H]; [ exact (base_not_zero H) | exact (sig2_nz H) ]. Qed.
Lemma sig2_R : decodable (firstn 57 sig2) /\ denotes (firstn 57 sig2) ebase.
Proof. destruct sig2_ok as (_ & _ & F1 & _). rewrite F1. split; [ exact base_decodable | exact base_denotes ]. Qed.
Lemma sig2_case : bytes (eencode ebase) /\ bytes sig2 /\ length sig2 = 114%nat /\ ~ zero_input (eencode ebase) sig2 /\
  decodable (eencode ebase) /\ decodable (firstn 57 sig2) /\ denotes (eencode ebase) ebase /\ denotes (firstn 57 sig2) ebase /\
  forall message, ed448_verify xof1 (eencode ebase) sig2 message = Some (Ok true).
Proof.
  split; [ apply eencode_bytes | ]. split; [ exact (proj1 sig2_ok) | ]. split; [ exact (proj1 (proj2 sig2_ok)) | ]. split; [ exact sig2_nonzero | ].
  split; [ exact base_decodable | ]. split; [ exact (proj1 sig2_R) | ]. split; [ exact base_denotes | ]. split; [ exact (proj2 sig2_R) | exact sig2_accepted ].
Qed.
Lemma total_case : bytes [] /\ bytes sig2 /\ (114 <= length sig2)%nat.
Proof. split; [ constructor | ]. split; [ exact (proj1 sig2_ok) | ]. rewrite (proj1 (proj2 sig2_ok)). apply Nat.le_refl. Qed.
Lemma errors_case : ~ zero_input (eencode ebase) sig2 /\ decodable (eencode ebase) /\ decodable (firstn 57 sig2) /\
  ~ decodable (eencode (emul bad_scalar ebase)) /\ zero_input (repeat 0 57) sig2.
Proof.
  split; [ exact sig2_nonzero | ]. split; [ exact base_decodable | ]. split; [ exact (proj1 sig2_R) | ]. split; [ exact bad_undecodable | left; reflexivity ].
Qed.
Lemma tail_case : length sig2 = 114%nat /\ [0] <> [] :> list Z /\ eencode ebase <> repeat 0 57 /\ sig2 <> repeat 0 114.
Proof. split; [ exact (proj1 (proj2 sig2_ok)) | ]. split; [ discriminate | ]. split; [ exact base_not_zero | exact sig2_nz ]. Qed.
Lemma malleable_case : bytes forged /\ length forged = 114%nat /\ forged <> repeat 0 114 /\
  bytes forged_q /\ length forged_q = 114%nat /\ forged_q <> repeat 0 114 /\ firstn 57 forged = firstn 57 forged_q /\ forged <> forged_q.
Proof.
  destruct forged_q_facts as (B & L & F & _ & Z & N). split; [ exact forged_bytes | ]. split; [ exact forged_len | ]. split; [ exact forged_not_zero | ].
  split; [ exact B | ]. split; [ exact L | ]. split; [ exact Z | ]. split; [ rewrite F; exact forged_R | exact N ].
Qed.
Lemma base_x_nz : fst ebase <> fzero.
Proof. Transparent ebase. unfold ebase, fst. change fzero with (mkF 0). intro E. apply mkF_eq in E. vm_compute in E. discriminate E. Qed.
Opaque ebase.
Lemma base_enc : enc_pad_ok (eencode ebase) = true /\ enc_y (eencode ebase) < p448.
Proof.
  destruct ebase as (x, y). destruct (enc_eencode x y) as (E1 & _ & E3). split; [ exact E3 | ]. rewrite E1. apply fval_range.
Qed.
Lemma canonical_case : bytes (eencode ebase) /\ length (eencode ebase) = 57%nat /\ enc_pad_ok (eencode ebase) = true /\
  denotes (eencode ebase) ebase /\ enc_y (eencode ebase) < p448 /\ fst ebase <> fzero.
Proof.
  split; [ apply eencode_bytes | ]. split; [ apply eencode_len | ]. split; [ exact (proj1 base_enc) | ]. split; [ exact base_denotes | ]. split; [ exact (proj2 base_enc) | exact base_x_nz ].
Qed.
Lemma base_case : on_curve ebase /\ decoder_tests ebase.
Proof. split; [ exact ebase_on | exact base_tests ]. Qed.
Lemma decode_case : decodable (eencode ebase) /\ ~ decodable (eencode (emul bad_scalar ebase)).
Proof. split; [ exact base_decodable | exact bad_undecodable ]. Qed.
Lemma base2_other : eencode ebase <> eencode (eadd ebase point2).
Proof.
  intro E. apply eencode_inj in E; [ | exact ebase_on | apply eadd_on; [ exact ebase_on | exact point2_on ] ].
  assert (K : eadd ebase ezero = eadd ebase point2) by (rewrite eadd_0_r; exact E).
  Transparent ezero.
  apply eadd_cancel_l in K; [ | exact ebase_on | exact ezero_on | exact point2_on ]. unfold ezero, point2 in K. pose proof (f_equal snd K) as S. unfold snd in S.
  change fone with (mkF 1) in S. rewrite <- mkF_opp in S. apply mkF_eq in S. vm_compute in S. discriminate S.
Qed.
Opaque ezero.
Lemma base_y_nz : snd ebase <> fzero.
Proof. Transparent ebase. unfold ebase, snd. change fzero with (mkF 0). intro E. apply mkF_eq in E. vm_compute in E. discriminate E. Qed.
Opaque ebase.
Lemma base2_not_zero : eencode (eadd ebase point2) <> repeat 0 57.
Proof.
  pose proof base_y_nz as N. destruct ebase as (x, y). rewrite shift2. destruct (enc_eencode (fopp x) (fopp y)) as (E1 & _). unfold snd in N.
  intro E. rewrite E in E1. change (enc_y (repeat 0 57)) with 0 in E1. apply N.
  assert (K : fopp y = fzero) by (apply fval_zero; symmetry; exact E1).
  transitivity (fopp (fopp y)); [ ring | rewrite K; ring ].
Qed.
Lemma alias_case : decodable (eencode ebase) /\ decodable (eencode (eadd ebase point2)) /\ denotes (eencode ebase) ebase /\
  denotes (eencode (eadd ebase point2)) (eadd ebase point2) /\ on_curve point2 /\ emul 4 point2 = ezero /\ eencode ebase <> eencode (eadd ebase point2) /\
  eencode ebase <> repeat 0 57 /\ eencode (eadd ebase point2) <> repeat 0 57 /\
  forall message, ed448_verify xof1 (eencode (eadd ebase point2)) sig2 message = Some (Ok true).
Proof.
  assert (D2 : denotes (eencode (eadd ebase point2)) (eadd ebase point2)) by (apply denotes_eencode; apply eadd_on; [ exact ebase_on | exact point2_on ]).
  split; [ exact base_decodable | ]. split; [ exact base2_decodable | ]. split; [ exact base_denotes | ].
  split; [ exact D2 | ]. split; [ exact point2_on | ]. split; [ exact point2_4 | ]. split; [ exact base2_other | ].
  split; [ exact base_not_zero | ]. split; [ exact base2_not_zero | ]. intro message.
  rewrite <- (alias_same xof1 xof1_xof _ _ sig2 message ebase point2 (eencode_bytes _) (eencode_bytes _) (proj1 sig2_ok) base_not_zero base2_not_zero base_decodable
    base2_decodable base_denotes D2 point2_on point2_4). exact (sig2_accepted message).
Qed.
Lemma identity_case : length zero_key = 57%nat /\ bytes zero_key /\ forall xof, key_scalar xof zero_key = 4 * q448.
Proof.
  destruct (identity_public_key xof1 xof1_xof) as (L & B & _). split; [ exact L | ]. split; [ exact B | ]. intro xof. vm_compute. reflexivity.
Qed.
Lemma comparison_case : summed full /\ carried (weak_reduce full) /\ fe full = fe (weak_reduce full) /\ full <> weak_reduce full.
Proof.
  destruct full_ok as (C & S & _ & L & _). destruct (field_reduce full L) as ((R1 & R2) & _). split; [ exact S | ]. split; [ exact R1 | ]. split; [ symmetry; exact R2 | ].
  vm_compute. discriminate.
Qed.
Lemma decode_long_case : bytes seed /\ Z.of_nat (length seed) < 2 ^ 64.
Proof. split; [ exact (proj1 (proj2 seed_ok)) | vm_compute; reflexivity ]. Qed.
Lemma multiplication_case : (exists p, represents p ebase) /\ represents identity_point ezero /\ reduced qm1.
Proof. split; [ exact base_point | ]. split; [ apply table_entries | exact (proj1 qm1_ok) ]. Qed.
Lemma recoding_case : reduced qm1 /\ (Z.to_nat (446 / (5 + 1) + 3) <= length (repeat (Smvt 0 0) 77))%nat /\
  (Z.to_nat (446 / (3 + 1) + 3) <= length (repeat (Smvt 0 0) 115))%nat.
Proof. split; [ exact (proj1 qm1_ok) | ]. rewrite !repeat_length. split; apply Nat.leb_le; vm_compute; reflexivity. Qed.
Lemma base_entry : exists n, entry n ebase.
Proof.
  destruct (wnaf_table_ok 0 ltac:(lia)) as (n & _ & H). exists n. apply entry_iff. change (2 * 0 + 1) with 1 in H. rewrite emul_1 in H. exact H.
Qed.
Lemma entries_case : (exists p, represents p ebase) /\ (exists n, entry n ebase) /\ (exists m, projective_entry m ebase) /\ (exists p, represents_xyz p ebase).
Proof.
  destruct base_point as (p & P). split; [ exists p; exact P | ]. split; [ | split ].
  - destruct base_entry as (n & N). exists n. exact N.
  - destruct (formulas p ebase P) as (_ & _ & _ & m & _ & M). exists m. exact M.
  - exists p. destruct P as (A1 & A2 & A3 & A4 & A5 & A6 & _ & A7).
    split; [ exact A1 | ]. split; [ exact A2 | ]. split; [ exact A3 | ]. split; [ exact A4 | ]. split; [ exact A5 | ]. split; [ exact A6 | exact A7 ].
Qed.
Lemma encode_case : on_curve ebase /\ emul q448 ebase = ezero /\ decodable (eencode ebase) /\ bytes (eencode ebase) /\ denotes (eencode ebase) ebase.
Proof. split; [ exact ebase_on | ]. split; [ exact base_q | ]. split; [ exact base_decodable | ]. split; [ apply eencode_bytes | exact base_denotes ]. Qed.
Lemma clamp_case : byte 5 /\ byte 7 /\ byte 129 /\ byte 1 /\ bytes (repeat 9 54) /\ length (repeat 9 54) = 54%nat /\
  128 <= 200 < 256 /\ 128 <= 128 < 256 /\ 5 / 4 = 7 / 4 /\ 129 mod 128 = 1 mod 128.
Proof.
  unfold byte. split; [ lia | ]. split; [ lia | ]. split; [ lia | ]. split; [ lia | ]. split; [ apply Forall_forall; intros x H; apply repeat_spec in H; subst x; unfold byte; lia | ].
  split; [ reflexivity | ]. split; [ lia | ]. split; [ lia | ]. split; reflexivity.
Qed.
Lemma seed_spelled : spells (lower_text seed) seed.
Proof. apply lower_spells. exact (proj1 (proj2 seed_ok)). Qed.
Lemma text_case : spells (lower_text seed) seed /\ length seed = 57%nat /\ ~ (length [0x67] = 114%nat /\ Forall is_digit [0x67]).
Proof. split; [ exact seed_spelled | ]. split; [ reflexivity | ]. intros (L & _). discriminate L. Qed.
Lemma upper_case : spells [0x41; 0x66; 0x30; 0x39] [0xaf; 0x09].
Proof.
  change [0xaf; 0x09] with [16 * 10 + 15; 16 * 0 + 9]. constructor; [ exists 10%nat; split; [ reflexivity | right; reflexivity ] | exists 15%nat; split; [ reflexivity | left; reflexivity ] | ].
  constructor; [ exists 0%nat; split; [ reflexivity | left; reflexivity ] | exists 9%nat; split; [ reflexivity | left; reflexivity ] | constructor ].
Qed.
Lemma keypair_case : exists sk, keypair shake256 seed sk.
Proof.
  destruct (signing_from_slice_ok shake256 shake256_xof seed) as (sk & K & _); [ exact (proj1 seed_ok) | exact (proj1 (proj2 seed_ok)) | exists sk; exact K ].
Qed.
Lemma digits_case : length (lower_text seed) = 114%nat /\ Forall is_digit (lower_text seed).
Proof. split; [ reflexivity | apply (spells_digits _ seed); exact seed_spelled ]. Qed.
Lemma constructor_case : length seed = 57%nat /\ bytes seed /\ spells (lower_text seed) seed /\ length [1; 2; 3] <> 57%nat.
Proof. split; [ reflexivity | ]. split; [ exact (proj1 (proj2 seed_ok)) | ]. split; [ exact seed_spelled | discriminate ]. Qed.
Lemma nonce_case : forall m m', exists sig sig', ed448_sign shake256 seed m = Some sig /\ ed448_sign shake256 seed m' = Some sig'.
Proof.
  intros m m'. pose proof (fun x => sign_total shake256 shake256_xof seed x (proj1 seed_ok) (proj1 (proj2 seed_ok))) as T.
  destruct (T m) as (a & A). destruct (T m') as (b & B). exists a, b. split; assumption.
Qed.
Lemma rfc_case : forall message, bytes sig2 /\ rfc_valid xof1 (eencode ebase) sig2 message /\ rfc_decodes (eencode ebase) ebase /\
  emul q448 ebase = ezero /\ sig2 <> repeat 0 114 /\ decodable (eencode ebase) /\ decodable (firstn 57 sig2) /\
  rfc_decodes (firstn 57 sig2) ebase /\ le_val (skipn 57 sig2) < q448.
Proof.
  intro message. destruct sig2_ok as (B & _ & F1 & F2). assert (D : rfc_decodes (eencode ebase) ebase) by (split; [ exact ebase_on | reflexivity ]).
  split; [ exact B | ]. split; [ apply sig2_valid | ]. split; [ exact D | ]. split; [ exact base_q | ]. split; [ exact sig2_nz | ]. split; [ exact base_decodable | ].
  split; [ exact (proj1 sig2_R) | ]. split; [ rewrite F1; exact D | ]. rewrite F2, two_val. vm_compute. reflexivity.
Qed.
Lemma hex_case : spells (lower_text (repeat 171 32)) (repeat 171 32) /\ length (repeat 171 32) = 32%nat.
Proof. split; [ apply lower_spells; apply Forall_forall; intros x H; apply repeat_spec in H; subst x; unfold byte; lia | reflexivity ]. Qed.
