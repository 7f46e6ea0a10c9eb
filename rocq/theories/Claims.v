(* The lemmas in the form in which Properties.v states them, and concrete cases for the hypotheses. *)
From Coq Require Import ZArith List Bool Lia.
From Verif Require Import SpecField SpecBytes SpecScalar SpecCurve SpecDecode SpecEd448 SpecVerify SpecHex SpecInternal SpecShake Base Constants32 BigNumber ScalarModel
  Niels Errors ExtendedPoint Eddsa Goldilocks Lib.
From Verif Require Import Field FieldOps Edwards Isogeny PointOps PointMul CombMul FastF BaseTables ScalarProofs Bytes Decode Ed448 Verify Order Equation Facts Witness Internal Sound Shake Torsion Kernel Api Samples.
Import ListNotations.
Open Scope Z_scope.

Section Hash.
Variable xof : list Z -> nat -> list Z.
Hypothesis XOF : is_xof xof.

Lemma public_seed : forall key, length key = 57%nat -> bytes key -> enc_sign key = false -> ed448_derive_public xof key = Some (rfc_public xof key).
Proof. intros key L B S. rewrite (derive_public_ok xof XOF key L B), S. reflexivity. Qed.
Lemma public_expanded : forall key, length key = 57%nat -> bytes key -> enc_sign key = true ->
  ed448_derive_public xof key = Some (eencode (emul (secret_scalar key) ebase)).
Proof. intros key L B S. rewrite (derive_public_ok xof XOF key L B), S. reflexivity. Qed.
Lemma sign_seed : forall key message, length key = 57%nat -> bytes key -> enc_sign key = false ->
  ed448_sign xof key message = Some (rfc_sign xof key message).
Proof. intros key message L B S. rewrite (sign_ok xof XOF key message L B), S. reflexivity. Qed.
Lemma sign_expanded : forall key message, length key = 57%nat -> bytes key -> enc_sign key = true ->
  ed448_sign xof key message =
  Some (rfc_sign_with xof (secret_scalar key) (le_bytes 57 (secret_scalar key)) (eencode (emul (secret_scalar key) ebase)) message).
Proof. intros key message L B S. rewrite (sign_ok xof XOF key message L B), S. reflexivity. Qed.
Lemma honest_refuted : exists key, length key = 57%nat /\ bytes key /\ forall message, exists pub sig,
  ed448_derive_public xof key = Some pub /\ ed448_sign xof key message = Some sig /\
  ed448_verify xof pub sig message = Some (Err DecodePubkeyError).
Proof. exists bad_key. split; [ exact bad_key_len | ]. split; [ exact bad_key_bytes | exact (honest_signature_refused xof XOF) ]. Qed.
Lemma length_refuted : exists pub short long, length short = 113%nat /\ length long = 115%nat /\ bytes pub /\ bytes short /\ bytes long /\
  forall message, ed448_verify xof pub short message = None /\ ed448_verify xof pub long message = Some (Ok true).
Proof.
  exists one_enc, (firstn 113 forged), (forged ++ [0]). pose proof (short_signature_panics xof XOF) as S. pose proof (long_signature_accepted xof XOF) as L.
  split; [ exact (proj1 (S [])) | ]. split; [ rewrite app_length, forged_len; reflexivity | ]. split; [ exact (proj1 one_bytes) | ].
  split; [ apply ScalarProofs.bytes_firstn; exact forged_bytes | ]. split; [ apply bytes_app; split; [ exact forged_bytes | repeat constructor; discriminate ] | ].
  intro message. split; [ exact (proj2 (S message)) | exact (L message _) ].
Qed.
Lemma malleable_refuted : exists pub sig sig', length sig = 114%nat /\ length sig' = 114%nat /\ firstn 57 sig = firstn 57 sig' /\ sig <> sig' /\
  le_val (skipn 57 sig') = le_val (skipn 57 sig) + q448 /\
  forall message, ed448_verify xof pub sig message = Some (Ok true) /\ ed448_verify xof pub sig' message = Some (Ok true).
Proof.
  exists one_enc, forged, forged_q. destruct forged_q_facts as (_ & L & F & _ & _ & N). pose proof (malleable xof XOF) as M.
  split; [ exact forged_len | ]. split; [ exact L | ]. split; [ rewrite F; exact forged_R | ]. split; [ exact N | ].
  split; [ vm_compute; reflexivity | ]. intro message. destruct (M message) as (_ & _ & M1 & M2). split; [ exact M1 | exact M2 ].
Qed.
Lemma undecodable_refuted : exists key pub, length key = 57%nat /\ bytes key /\ ed448_derive_public xof key = Some pub /\
  eddsa_like_decode pub = Some (Err DecodeError).
Proof. destruct (derived_key_undecodable xof XOF) as (pub & H). exists bad_key, pub. split; [ exact bad_key_len | split; [ exact bad_key_bytes | exact H ] ]. Qed.
Lemma identity_refuted : exists key, length key = 57%nat /\ bytes key /\ ed448_derive_public xof key = Some (eencode ezero).
Proof. exists zero_key. exact (identity_public_key xof XOF). Qed.
Lemma forgery_refuted : exists sig, length sig = 114%nat /\ bytes sig /\ forall message, ed448_verify xof (eencode ezero) sig message = Some (Ok true).
Proof. exists forged. split; [ exact forged_len | ]. split; [ exact forged_bytes | ]. rewrite one_enc_ok. exact (identity_key_forgery xof XOF). Qed.
Lemma nonces : forall key m m' sig sig', length key = 57%nat -> bytes key ->
  ed448_sign xof key m = Some sig -> ed448_sign xof key m' = Some sig' ->
  let prefix := if enc_sign key then le_bytes 57 (secret_scalar key) else skipn 57 (xof key 114) in
  let nonce := fun x => le_val (xof (rfc_dom ++ prefix ++ x) 114) mod q448 in
  (firstn 57 sig = firstn 57 sig' <-> nonce m = nonce m').
Proof.
  intros key m m' sig sig' L B E E' prefix nonce. rewrite (sign_ok xof XOF key m L B) in E. rewrite (sign_ok xof XOF key m' L B) in E'. apply some_inj in E. apply some_inj in E'.
  assert (F : forall s p A x, firstn 57 (rfc_sign_with xof s p A x) = eencode (emul (le_val (xof (rfc_dom ++ p ++ x) 114)) ebase)).
  { intros s p A x. unfold rfc_sign_with. cbv zeta. rewrite firstn_app, eencode_len, Nat.sub_diag, firstn_O, app_nil_r. apply firstn_all2. rewrite eencode_len. apply Nat.le_refl. }
  unfold nonce, prefix. rewrite <- nonce_inj. rewrite <- E, <- E'. unfold rfc_sign. cbv zeta. destruct (enc_sign key); rewrite !F; split; intro K; exact K.
Qed.
Lemma derive_public_total : forall key, length key = 57%nat -> bytes key -> exists pub, ed448_derive_public xof key = Some pub /\ length pub = 57%nat /\ bytes pub.
Proof. exact (derive_some xof XOF). Qed.
End Hash.

Lemma encodings_refuted : exists a b, a <> b /\ bytes a /\ bytes b /\ (exists p, eddsa_like_decode a = Some (Ok p)) /\ (exists p, eddsa_like_decode b = Some (Ok p)) /\
  denotes a ezero /\ denotes b ezero /\ p448 <= enc_y b.
Proof.
  exists one_enc, one_big. destruct three_encodings as (_ & N & _ & D1 & _ & D3 & E1 & _ & E3). destruct one_bytes as (B1 & _ & B3).
  split; [ exact N | ]. split; [ exact B1 | ]. split; [ exact B3 | ].
  split; [ apply decode_iff; assumption | ]. split; [ apply decode_iff; assumption | ]. split; [ exact E1 | ]. split; [ exact E3 | ]. vm_compute. discriminate.
Qed.
Lemma sign_bit_refuted : exists a b, a <> b /\ bytes a /\ bytes b /\ (exists p, eddsa_like_decode a = Some (Ok p)) /\ (exists p, eddsa_like_decode b = Some (Ok p)) /\
  denotes a ezero /\ denotes b ezero /\ enc_y a < p448 /\ enc_y b < p448.
Proof.
  exists one_enc, one_neg. destruct three_encodings as (N & _ & _ & D1 & D3 & _ & E1 & E3 & _). destruct one_bytes as (B1 & B3 & _).
  split; [ exact N | ]. split; [ exact B1 | ]. split; [ exact B3 | ].
  split; [ apply decode_iff; assumption | ]. split; [ apply decode_iff; assumption | ]. split; [ exact E1 | ]. split; [ exact E3 | ]. split; vm_compute; reflexivity.
Qed.
Lemma off_refuted : exists src, bytes src /\ enc_y src < p448 /\ (exists p, eddsa_like_decode src = Some (Ok p)) /\ forall x, ~ on_curve (x, mkF (enc_y src)).
Proof.
  destruct off_curve_accepted as (D & L & _). exists off_src. split; [ unfold off_src; apply bytes_app; split; [ apply Bytes.le_bytes_bytes | repeat constructor; lia ] | ].
  split; [ exact L | ]. split; [ exact D | ]. destruct off_fields as (E & _). rewrite E. exact off_not_curve.
Qed.
Lemma refused_range : exists P, on_curve P /\ range_test (fval (snd P)) = false /\ eddsa_like_decode (eencode P) = Some (Err DecodeError).
Proof.
  exists (emul bad_scalar ebase). split; [ apply emul_on; exact ebase_on | ]. split; [ rewrite bad_public; unfold zF; destruct bad_point as (x, y) eqn:E | ].
  - unfold snd. rewrite fval_mkF. replace y with (snd bad_point) by (rewrite E; reflexivity). exact bad_range.
  - apply decode_iff; [ apply eencode_bytes | ]. split; [ apply eencode_len | exact bad_undecodable ].
Qed.
Lemma refused_denominator : exists P, on_curve P /\ range_test (fval (snd P)) = true /\ eddsa_like_decode (eencode P) = Some (Err DecodeError).
Proof.
  destruct curve_point_refused_z as (A & B & C). exists (mkF flat_x, mkF flat_y). split; [ exact A | ]. split; [ | exact C ].
  unfold snd. rewrite fval_mkF. rewrite Z.mod_small; [ exact B | vm_compute; split; [ discriminate | reflexivity ] ].
Qed.
Lemma point_decodes_iff : forall P, on_curve P -> ((exists p, eddsa_like_decode (eencode P) = Some (Ok p)) <-> decoder_tests P).
Proof.
  intros P H. rewrite <- decodable_eencode by exact H. destruct (decode_iff _ (eencode_bytes P)) as (D1 & D2 & _). split; [ intros (p & K); exact (D1 p K) | exact D2 ].
Qed.
Lemma residue_curve : forall y s x, candidate y s x -> (residue x y = fzero <-> on_curve (x, y)).
Proof. exact residue_zero. Qed.
Lemma comparison_refuted : exists a b, carried a /\ carried b /\ fe a <> fe b /\ decaf_equal a b = Some (2 ^ 32 - 1).
Proof.
  destruct equality_false_positive as (T1 & T2 & N & m & E1 & E2). exists top_limb, BIG_ZERO. rewrite !carried_iff, !fe_F. split; [ exact T1 | ]. split; [ exact T2 | ]. split; [ exact N | ].
  vm_compute. reflexivity.
Qed.
Section Hash2.
Variable xof : list Z -> nat -> list Z.
Lemma total_both : is_xof xof -> forall pub sig message, bytes pub -> bytes sig -> (114 <= length sig)%nat ->
  (exists r, ed448_verify xof pub sig message = Some r) /\ (exists r, ed448_verify_with_error xof pub sig message = Some r).
Proof.
  intros X pub sig message B1 B2 L. destruct (verify_total xof X pub sig message B1 B2 L) as (r & E). split; [ exists r; exact E | ].
  rewrite (verify_with_error_ok xof pub sig message), E. destruct r as [[|]|e]; eexists; reflexivity.
Qed.
Lemma tail_ignored : forall pub sig tail message, length sig = 114%nat -> tail <> [] -> pub <> repeat 0 57 -> sig <> repeat 0 114 ->
  ed448_verify xof pub (sig ++ tail) message = ed448_verify xof pub sig message.
Proof.
  intros pub sig tail message L T P S. rewrite (verify_tail xof pub sig tail message L T P). symmetry. apply verify_dsa. intros [Z|Z]; [ exact (P Z) | exact (S Z) ].
Qed.
End Hash2.
