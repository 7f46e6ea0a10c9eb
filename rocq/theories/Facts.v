(* Consequences for the public functions: error classification, lengths, aliases of keys and
   signatures, canonical output, re-encoding. *)
From Coq Require Import ZArith List Bool Lia Znumtheory Ring.
From Verif Require Import SpecField SpecBytes SpecScalar SpecCurve SpecDecode SpecEd448 SpecVerify Base Arith Bytes Constants32 BigNumber ScalarModel
  Niels Errors ExtendedPoint Eddsa Goldilocks.
From Verif Require Import LimbOps2 Field FieldOps ScalarProofs Edwards Isogeny PointOps PointMul CombMul BaseTables Recode DoubleMul Decode Total Ed448 Verify Order Equation.
Import ListNotations.
Open Scope Z_scope.

(* encodings *)
Lemma eencode_inj : forall P Q, on_curve P -> on_curve Q -> eencode P = eencode Q -> P = Q.
Proof.
  intros (x, y) (x', y') H1 H2 E. apply code_inj; [ exact H1 | exact H2 | ]. unfold code. cbn [fst snd].
  destruct (enc_eencode x y) as (A1 & A2 & _). destruct (enc_eencode x' y') as (B1 & B2 & _). rewrite <- A1, <- A2, <- B1, <- B2, E. reflexivity.
Qed.
Theorem nonce_inj : forall r r', eencode (emul r ebase) = eencode (emul r' ebase) <-> r mod q448 = r' mod q448.
Proof.
  intros r r'. rewrite <- base_inj. split; intro E; [ | rewrite E; reflexivity ].
  apply eencode_inj; [ apply emul_on; exact ebase_on .. | exact E ].
Qed.
Theorem encode_decode : forall P, on_curve P -> emul q448 P = ezero -> decodable (eencode P) ->
  exists p, eddsa_like_decode (eencode P) = Some (Ok p) /\ eddsa_like_encode p = Some (eencode P).
Proof.
  intros P HP HQ D. destruct (decode_good _ (eencode_bytes P) D) as (p & E & _ & H).
  rewrite <- (denotes_dpoint _ _ (denotes_eencode P HP)) in H. specialize (H HP).
  exists p. split; [ exact E | ]. rewrite (encode_point_ok p _ (proj1 H)), m4_part by exact HP.
  unfold subgroup_part. rewrite emul_add, HQ, emul_1, eadd_0_l by exact HP. reflexivity.
Qed.
(* any accepted string that denotes a point: re-encoding gives the component in the group of B *)
Theorem encode_decode_gen : forall src P, bytes src -> decodable src -> denotes src P ->
  exists p, eddsa_like_decode src = Some (Ok p) /\ eddsa_like_encode p = Some (eencode (subgroup_part P)).
Proof.
  intros src P B D N. destruct (decode_good _ B D) as (p & E & _ & H).
  rewrite <- (denotes_dpoint _ _ N) in H. specialize (H (proj1 N)).
  exists p. split; [ exact E | ]. rewrite (encode_point_ok p _ (proj1 H)), m4_part by exact (proj1 N). reflexivity.
Qed.
(* the decoder: exactly *)
Lemma decodable_len : forall src, decodable src -> length src = 57%nat.
Proof. intros src D. exact (proj1 D). Qed.
Local Opaque decodable.
Theorem decode_iff : forall src, bytes src ->
  (forall p, eddsa_like_decode src = Some (Ok p) -> decodable src) /\
  (decodable src -> exists p, eddsa_like_decode src = Some (Ok p)) /\
  (eddsa_like_decode src = Some (Err DecodeError) <-> length src = 57%nat /\ ~ decodable src) /\
  (eddsa_like_decode src = Some (Err InvalidLengthError) <-> length src <> 57%nat).
Proof.
  intros src B. destruct (Nat.eq_dec (length src) 57) as [L|L].
  - destruct (decodable_dec src) as [D|D].
    + destruct (decode_good src B D) as (p & E & _). rewrite E. repeat apply conj; try discriminate; try tauto; eauto.
    + rewrite (decode_bad src L B D). repeat apply conj; try discriminate; try tauto.
  - rewrite (decode_length src L). repeat apply conj; try discriminate; try tauto; intro D; exfalso; exact (L (decodable_len src D)).
Qed.

Section Hash.
Variable xof : list Z -> nat -> list Z.
Hypothesis XOF : is_xof xof.

Lemma zero_input_dec : forall pub sig, bytes_eqb pub zero_public_key || bytes_eqb sig zero_signature = true <-> zero_input pub sig.
Proof. intros pub sig. rewrite orb_true_iff, !bytes_eqb_eq. reflexivity. Qed.
Theorem verify_errors : forall pub sig message, bytes pub -> bytes sig ->
  let v := ed448_verify xof pub sig message in
  (v = Some (Err InvalidSignatureError) <-> zero_input pub sig) /\
  (v = Some (Err InvalidPubkeyLengthError) <-> ~ zero_input pub sig /\ length pub <> 57%nat) /\
  (v = Some (Err DecodePubkeyError) <-> ~ zero_input pub sig /\ length pub = 57%nat /\ ~ decodable pub) /\
  (v = None <-> ~ zero_input pub sig /\ decodable pub /\ (length sig < 114)%nat) /\
  (v = Some (Err DecodeSignatureError) <->
     ~ zero_input pub sig /\ decodable pub /\ (114 <= length sig)%nat /\ ~ decodable (firstn 57 sig)) /\
  ((exists b, v = Some (Ok b)) <->
     ~ zero_input pub sig /\ decodable pub /\ (114 <= length sig)%nat /\ decodable (firstn 57 sig)) /\
  (forall e, v = Some (Err e) -> In e [InvalidSignatureError; InvalidPubkeyLengthError; DecodePubkeyError; DecodeSignatureError]).
Proof.
  intros pub sig message B1 B2. cbv zeta. pose proof (verify_classes xof XOF pub sig message B1 B2) as C.
  unfold verify_class in C. pose proof (zero_input_dec pub sig) as ZI.
  destruct (bytes_eqb pub zero_public_key || bytes_eqb sig zero_signature).
  { rewrite C. assert (zero_input pub sig) by (apply ZI; reflexivity).
    repeat apply conj; try discriminate; try tauto; try (intros (b & E); discriminate E). intros e E. injection E as <-. cbn; tauto. }
  assert (NZ : ~ zero_input pub sig) by (intro H; apply ZI in H; discriminate H). clear ZI.
  destruct (Nat.eqb_spec (length pub) 57) as [L|L]; cbn [negb] in C.
  2:{ assert (ND : ~ decodable pub) by (intro D; exact (L (decodable_len pub D))).
      rewrite C. repeat apply conj; try discriminate; try tauto; try (intros (b & E); discriminate E). intros e E. injection E as <-. cbn; tauto. }
  destruct (decodable_dec pub) as [D|D].
  2:{ rewrite C. repeat apply conj; try discriminate; try tauto; try (intros (b & E); discriminate E). intros e E. injection E as <-. cbn; tauto. }
  destruct (Nat.ltb_spec (length sig) 114) as [S|S].
  { rewrite C. repeat apply conj; try discriminate; try tauto; try lia; try (intros (b & E); discriminate E). }
  unfold sig_R in C. destruct (decodable_dec (firstn 57 sig)) as [D2|D2].
  - destruct C as (b & C). rewrite C. repeat apply conj; try discriminate; try tauto; try lia. intros _. exists b. reflexivity.
  - rewrite C. repeat apply conj; try discriminate; try tauto; try lia; try (intros (b & E); discriminate E). intros e E. injection E as <-. cbn; tauto.
Qed.
Theorem verify_total : forall pub sig message, bytes pub -> bytes sig -> (114 <= length sig)%nat ->
  exists r, ed448_verify xof pub sig message = Some r.
Proof.
  intros pub sig message B1 B2 L. destruct (ed448_verify xof pub sig message) as [r|] eqn:E; [ exists r; reflexivity | ].
  apply (verify_errors pub sig message B1 B2) in E. destruct E as (_ & _ & E). lia.
Qed.
(* ed448_verify_with_error *)
Theorem verify_with_error_ok : forall pub sig message,
  ed448_verify_with_error xof pub sig message =
  match ed448_verify xof pub sig message with
  | None => None
  | Some (Ok true) => Some (Ok tt)
  | Some (Ok false) => Some (Err InvalidSignatureError)
  | Some (Err e) => Some (Err e)
  end.
Proof.
  intros pub sig message. unfold ed448_verify_with_error, ed448_verify.
  destruct (bytes_eqb pub zero_public_key || bytes_eqb sig zero_signature); [ reflexivity | ].
  destruct (dsa_verify xof pub sig message) as [[[|]|e]|]; reflexivity.
Qed.

(* S is used modulo q only, and bytes after the first 114 are not looked at *)
Theorem dsa_verify_S : forall pub sig sig' message, bytes sig -> bytes sig' ->
  (114 <= length sig)%nat -> (114 <= length sig')%nat -> firstn 57 sig = firstn 57 sig' ->
  le_val (firstn 57 (skipn 57 sig)) mod q448 = le_val (firstn 57 (skipn 57 sig')) mod q448 ->
  dsa_verify xof pub sig message = dsa_verify xof pub sig' message.
Proof.
  intros pub sig sig' message B B' L L' ER ES. unfold dsa_verify.
  rewrite !slice_some by lia. change (firstn (57 - 0) (skipn 0 sig)) with (firstn 57 sig).
  change (firstn (57 - 0) (skipn 0 sig')) with (firstn 57 sig'). rewrite ER.
  change (firstn (57 + 57 - 57) (skipn 57 sig)) with (firstn 57 (skipn 57 sig)).
  change (firstn (57 + 57 - 57) (skipn 57 sig')) with (firstn 57 (skipn 57 sig')).
  assert (ED : decode_long (firstn 57 (skipn 57 sig)) = decode_long (firstn 57 (skipn 57 sig'))).
  { assert (Len : forall l : list Z, Z.of_nat (length (firstn 57 l)) < 2 ^ 64) by (intro l; rewrite firstn_length; lia).
    destruct (decode_long_ok (firstn 57 (skipn 57 sig))) as (u & Eu & (Wu & _) & Vu); [ apply bytes_firstn, bytes_skipn; exact B | apply Len | ].
    destruct (decode_long_ok (firstn 57 (skipn 57 sig'))) as (v & Ev & (Wv & _) & Vv); [ apply bytes_firstn, bytes_skipn; exact B' | apply Len | ].
    rewrite Eu, Ev. f_equal. apply wf_inj; [ exact Wu | exact Wv | ]. rewrite Vu, Vv. exact ES. }
  destruct (eddsa_like_decode pub) as [[p|e]|]; [ | reflexivity | reflexivity ]. rewrite !bind_Some. cbv beta iota.
  destruct (point_scalar_mul p scalar_four) as [p2|]; [ | reflexivity ]. rewrite !bind_Some. cbv beta. rewrite ED. reflexivity.
Qed.
Theorem verify_S : forall pub sig sig' message, bytes sig -> bytes sig' ->
  (114 <= length sig)%nat -> (114 <= length sig')%nat -> sig <> repeat 0 114 -> sig' <> repeat 0 114 ->
  firstn 57 sig = firstn 57 sig' ->
  le_val (firstn 57 (skipn 57 sig)) mod q448 = le_val (firstn 57 (skipn 57 sig')) mod q448 ->
  ed448_verify xof pub sig message = ed448_verify xof pub sig' message.
Proof.
  intros pub sig sig' message B B' L L' N N' ER ES. unfold ed448_verify.
  assert (Z : forall s, s <> repeat 0 114 -> bytes_eqb s zero_signature = false).
  { intros s Hs. apply not_true_is_false. intro E. apply bytes_eqb_eq in E. exact (Hs E). }
  rewrite (Z _ N), (Z _ N'). rewrite (dsa_verify_S pub sig sig') by assumption. reflexivity.
Qed.
Theorem verify_tail : forall pub sig tail message, length sig = 114%nat -> tail <> [] ->
  pub <> repeat 0 57 -> ed448_verify xof pub (sig ++ tail) message = dsa_verify xof pub sig message.
Proof.
  intros pub sig tail message L T N. unfold ed448_verify.
  assert (Z1 : bytes_eqb pub zero_public_key = false) by (apply not_true_is_false; intro E; apply bytes_eqb_eq in E; exact (N E)).
  assert (Z2 : bytes_eqb (sig ++ tail) zero_signature = false).
  { apply not_true_is_false; intro E; apply bytes_eqb_eq in E. apply (f_equal (@length Z)) in E. rewrite app_length, L in E.
    change (length zero_signature) with 114%nat in E. destruct tail; [ exact (T eq_refl) | cbn [length] in E; lia ]. }
  rewrite Z1, Z2. cbn [orb]. unfold dsa_verify.
  rewrite !slice_some by (rewrite ?app_length; lia).
  assert (F1 : firstn (57 - 0) (skipn 0 (sig ++ tail)) = firstn (57 - 0) (skipn 0 sig)).
  { rewrite !skipn_O. rewrite firstn_app, L. change (57 - 0 - 114)%nat with 0%nat. rewrite firstn_O. apply app_nil_r. }
  assert (F2 : firstn (57 + 57 - 57) (skipn 57 (sig ++ tail)) = firstn (57 + 57 - 57) (skipn 57 sig)).
  { rewrite skipn_app, L, firstn_app, skipn_length, L. change (57 + 57 - 57 - (114 - 57))%nat with 0%nat. rewrite firstn_O. apply app_nil_r. }
  rewrite F1, F2. reflexivity.
Qed.

(* public keys that differ by a point of order dividing 4 *)
Lemma subgroup_alias : forall A T, on_curve A -> on_curve T -> emul 4 T = ezero -> subgroup_part (eadd A T) = subgroup_part A.
Proof.
  intros A T HA HT H4. unfold subgroup_part. rewrite emul_eadd by assumption.
  replace (emul (q448 + 1) T) with ezero; [ apply eadd_0_r | ]. symmetry.
  assert (E : q448 + 1 = (q448 + 1) / 4 * 4) by reflexivity. rewrite E, emul_mul, H4 by exact HT. apply emul_ezero.
Qed.
Lemma equation_alias : forall S R k A T, on_curve A -> on_curve T -> emul 4 T = ezero ->
  (rfc_equation S R k (eadd A T) <-> rfc_equation S R k A).
Proof.
  intros S R k A T HA HT H4. unfold rfc_equation. rewrite (emul_eadd (4 * k)) by assumption.
  rewrite (Z.mul_comm 4 k), (emul_mul k 4 T), H4, emul_ezero, eadd_0_r by exact HT. reflexivity.
Qed.

(* verdicts in terms of the RFC equation *)
Theorem verify_accepts : forall pub sig message A R, bytes pub -> bytes sig -> (114 <= length sig)%nat -> ~ zero_input pub sig ->
  decodable pub -> decodable (firstn 57 sig) -> denotes pub A -> denotes (firstn 57 sig) R ->
  rfc_equation (le_val (firstn 57 (skipn 57 sig))) R (rfc_challenge xof (firstn 57 sig) (eencode (subgroup_part A)) message) A ->
  ed448_verify xof pub sig message = Some (Ok true).
Proof.
  intros pub sig message A R B1 B2 L NZ D1 D2 N1 N2 H.
  destruct (verify_equation xof XOF pub sig message A R B1 B2 L D1 D2 N1 N2) as (r4 & pk & P & Q & _ & _ & _ & _ & _ & CZ & E).
  unfold ed448_verify. destruct (bytes_eqb pub zero_public_key || bytes_eqb sig zero_signature) eqn:Z.
  { exfalso. apply NZ. apply zero_input_dec. exact Z. }
  rewrite E. rewrite (proj2 CZ H). rewrite low_zero_eq, low420_zero. reflexivity.
Qed.
Theorem verify_sound : forall pub sig message A R, bytes pub -> bytes sig -> (114 <= length sig)%nat -> ~ zero_input pub sig ->
  decodable pub -> decodable (firstn 57 sig) -> denotes pub A -> denotes (firstn 57 sig) R ->
  let k := rfc_challenge xof (firstn 57 sig) (eencode (subgroup_part A)) message in
  let S := le_val (firstn 57 (skipn 57 sig)) in
  exists r4 pk P Q, compared xof pub sig message r4 pk /\ isP r4 P /\ emul 4 P = emul 4 R /\
    isP pk Q /\ emul 4 Q = eadd (emul (4 * S) ebase) (eneg (emul (4 * k) A)) /\
    (fsub (fmul (F (py r4)) (F (px pk))) (fmul (F (px r4)) (F (py pk))) = fzero <-> rfc_equation S R k A) /\
    ed448_verify xof pub sig message = Some (Ok (low_zero (fsub (fmul (F (py r4)) (F (px pk))) (fmul (F (px r4)) (F (py pk)))))).
Proof.
  intros pub sig message A R B1 B2 L NZ D1 D2 N1 N2 k S.
  destruct (verify_equation xof XOF pub sig message A R B1 B2 L D1 D2 N1 N2) as (r4 & pk & P & Q & H1 & H2 & H3 & H4 & H5 & H6 & H7).
  exists r4, pk, P, Q. split; [ exact H1 | ]. split; [ exact H2 | ]. split; [ exact H3 | ]. split; [ exact H4 | ].
  split; [ exact H5 | ]. split; [ exact H6 | ].
  unfold ed448_verify. destruct (bytes_eqb pub zero_public_key || bytes_eqb sig zero_signature) eqn:Z.
  { exfalso. apply NZ. apply zero_input_dec. exact Z. }
  exact H7.
Qed.

(* what signing returns *)
Theorem sign_canonical : forall key message sig, length key = 57%nat -> bytes key -> ed448_sign xof key message = Some sig ->
  length sig = 114%nat /\ bytes sig /\
  enc_y (firstn 57 sig) < p448 /\ (nth 56 sig 0 = 0 \/ nth 56 sig 0 = 128) /\
  le_val (skipn 57 sig) < q448 /\ nth 113 sig 0 = 0.
Proof.
  intros key message sig L B E. rewrite sign_ok in E by assumption. apply some_inj in E.
  assert (K : exists P S, sig = eencode P ++ le_bytes 57 (S mod q448)).
  { destruct (enc_sign key); rewrite <- E; unfold rfc_sign, rfc_sign_with; cbv zeta; do 2 eexists; reflexivity. }
  clear E. destruct K as ((x, y) & S & ->).
  pose proof (eencode_len (x, y)) as LE. destruct (enc_eencode x y) as (E1 & E2 & E3).
  pose proof (Z.mod_pos_bound S q448 ltac:(reflexivity)) as RS. revert RS. generalize (S mod q448). intros s RS.
  assert (R2 : 0 <= s < 256 ^ Z.of_nat 57) by (unfold q448 in RS; lia).
  split; [ rewrite app_length, LE, le_bytes_length; reflexivity | ].
  split; [ apply bytes_app; split; [ apply eencode_bytes | apply le_bytes_bytes ] | ].
  split; [ | split; [ | split ] ].
  - rewrite firstn_app, LE, Nat.sub_diag, firstn_O, app_nil_r, firstn_all2 by (rewrite LE; apply Nat.le_refl). rewrite E1. apply fval_range.
  - rewrite app_nth1 by (rewrite LE; lia). unfold eencode. rewrite app_nth2 by (rewrite le_bytes_length; lia).
    rewrite le_bytes_length. change (56 - 56)%nat with 0%nat. cbn [nth]. rewrite Zmod_odd. destruct (Z.odd (fval x)); cbn; auto.
  - rewrite skipn_app, LE, Nat.sub_diag, skipn_O, skipn_all2, app_nil_l by (rewrite LE; apply Nat.le_refl).
    rewrite le_val_le_bytes, Z.mod_small by exact R2. apply RS.
  - rewrite app_nth2 by (rewrite LE; lia). rewrite LE. change (113 - 57)%nat with 56%nat. change 57%nat with (56 + 1)%nat at 1.
    rewrite le_bytes_snoc, app_nth2 by (rewrite le_bytes_length; lia). rewrite le_bytes_length. change (56 - 56)%nat with 0%nat. cbn [nth].
    rewrite Z.div_small; [ reflexivity | ]. unfold q448 in RS. lia.
Qed.
Theorem sign_total : forall key message, length key = 57%nat -> bytes key -> exists sig, ed448_sign xof key message = Some sig.
Proof. intros key message L B. rewrite sign_ok by assumption. eexists. reflexivity. Qed.

(* keys that differ in clamped bits only *)
Lemma secret_clamped : forall b0 mid b55 b56 b0' b55' b56',
  byte b0 -> byte b0' -> byte b55 -> byte b55' -> bytes mid -> length mid = 54%nat ->
  b0 / 4 = b0' / 4 -> b55 mod 128 = b55' mod 128 ->
  secret_scalar (b0 :: mid ++ [b55; b56]) = secret_scalar (b0' :: mid ++ [b55'; b56']).
Proof.
  intros b0 mid b55 b56 b0' b55' b56' H0 H0' H5 H5' Bm Lm E0 E5.
  assert (F : forall a b c, firstn 56 (a :: mid ++ [b; c]) = a :: mid ++ [b]).
  { intros a b c. rewrite firstn_cons. f_equal. change (mid ++ [b; c]) with (mid ++ [b] ++ [c]). rewrite app_assoc, firstn_app.
    rewrite app_length, Lm. change (55 - (54 + length [b]))%nat with 0%nat. rewrite firstn_O, app_nil_r.
    apply firstn_all2. rewrite app_length, Lm. apply Nat.le_refl. }
  unfold secret_scalar. rewrite !F. f_equal. f_equal.
  assert (V : forall a b, byte a -> byte b -> (le_val (a :: mid ++ [b]) mod 2 ^ 447) / 4 = a / 4 + 64 * (le_val mid + 256 ^ 54 * (b mod 128))).
  { intros a b Ha Hb. cbn [le_val]. rewrite le_val_app, Lm. cbn [le_val]. change (Z.of_nat 54) with 54.
    pose proof (le_val_range mid Bm) as Rm. rewrite Lm in Rm. change (Z.of_nat 54) with 54 in Rm. revert Rm. generalize (le_val mid). intros m Rm.
    unfold byte in *. pose proof (Z.mod_pos_bound b 128 ltac:(lia)) as Rb. pose proof (Z.div_mod b 128 ltac:(lia)) as Db.
    assert (E : (a + 256 * (m + 256 ^ 54 * (b + 256 * 0))) mod 2 ^ 447 = a + 256 * (m + 256 ^ 54 * (b mod 128))).
    { symmetry. apply (Z.mod_unique _ _ (b / 128)).
      - left. change (256 ^ 54) with (2 ^ 432) in *. lia.
      - change (256 ^ 54) with (2 ^ 432) in *. lia. }
    rewrite E. replace (a + 256 * (m + 256 ^ 54 * (b mod 128))) with (a + (64 * (m + 256 ^ 54 * (b mod 128))) * 4) by ring.
    rewrite Z.div_add by lia. reflexivity. }
  rewrite !V by assumption. rewrite E0, E5. reflexivity.
Qed.
Theorem clamped_bits : forall b0 mid b55 b56 b0' b55' b56',
  byte b0 -> byte b0' -> byte b55 -> byte b55' -> bytes mid -> length mid = 54%nat ->
  128 <= b56 < 256 -> 128 <= b56' < 256 ->
  b0 / 4 = b0' / 4 -> b55 mod 128 = b55' mod 128 ->
  let k := b0 :: mid ++ [b55; b56] in
  let k' := b0' :: mid ++ [b55'; b56'] in
  ed448_derive_public xof k = ed448_derive_public xof k' /\
  forall message, ed448_sign xof k message = ed448_sign xof k' message.
Proof.
  intros b0 mid b55 b56 b0' b55' b56' H0 H0' H5 H5' Bm Lm T T' E0 E5 k k'.
  assert (Lk : forall a b c, length (a :: mid ++ [b; c]) = 57%nat) by (intros; cbn [length]; rewrite app_length, Lm; reflexivity).
  assert (Bk : forall a b c, byte a -> byte b -> byte c -> bytes (a :: mid ++ [b; c])).
  { intros a b c Ha Hb Hc. constructor; [ exact Ha | ]. apply Forall_app. split; [ exact Bm | ]. constructor; [ exact Hb | constructor; [ exact Hc | constructor ] ]. }
  assert (B6 : forall b, 128 <= b < 256 -> byte b) by (intros b Hb; unfold byte; lia).
  assert (Sg : forall a b c, 128 <= c -> enc_sign (a :: mid ++ [b; c]) = true).
  { intros a b c Hc. change (a :: mid ++ [b; c]) with (a :: mid ++ [b] ++ [c]). rewrite app_assoc. change (a :: (mid ++ [b]) ++ [c]) with ((a :: mid ++ [b]) ++ [c]).
    rewrite (proj1 (proj2 (enc_fields (a :: mid ++ [b]) c ltac:(cbn [length]; rewrite app_length, Lm; reflexivity)))). apply Z.leb_le. exact Hc. }
  assert (ES : secret_scalar k = secret_scalar k') by (apply secret_clamped; assumption).
  split; [ | intro message ].
  - unfold k, k'. rewrite !derive_public_ok by auto. rewrite !Sg by lia. fold k k'. rewrite ES. reflexivity.
  - unfold k, k'. rewrite !sign_ok by auto. rewrite !Sg by lia. fold k k'. rewrite ES. reflexivity.
Qed.
(* private_to_secret *)
Theorem private_to_secret_consistent : forall k, exists s, private_to_secret xof k = Some s /\
  length s = 57%nat /\ bytes s /\ enc_sign s = true /\ ed448_derive_public xof s = private_to_public xof k.
Proof.
  intro k. destruct (private_to_secret_ok xof XOF k) as (b & E & Hb). exists (firstn 56 (xof k 114) ++ [b]).
  assert (L : length (firstn 56 (xof k 114)) = 56%nat) by (rewrite firstn_length, xof_len by exact XOF; reflexivity).
  assert (L2 : length (firstn 56 (xof k 114) ++ [b]) = 57%nat) by (rewrite app_length, L; reflexivity).
  assert (B2 : bytes (firstn 56 (xof k 114) ++ [b])).
  { apply bytes_app. split; [ apply bytes_firstn; apply xof_bytes; exact XOF | ]. repeat constructor; lia. }
  assert (S : enc_sign (firstn 56 (xof k 114) ++ [b]) = true) by (rewrite (proj1 (proj2 (enc_fields _ b L))); apply Z.leb_le; lia).
  split; [ exact E | ]. split; [ exact L2 | ]. split; [ exact B2 | ]. split; [ exact S | ].
  rewrite derive_public_ok, S by assumption. unfold private_to_public. rewrite E, bind_Some. cbv beta.
  symmetry. apply secret_to_public_ok; assumption.
Qed.
End Hash.
