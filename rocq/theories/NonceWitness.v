(* A good key and a message whose signature is refused because of its R: every key and message, for a hash changed at one input. *)
From Coq Require Import ZArith List Bool Lia.
From Verif Require Import SpecField SpecBytes SpecScalar SpecCurve SpecDecode SpecEd448 SpecVerify SpecInternal SpecUniform SpecProtocol.
From Verif Require Import Base Bytes Errors ExtendedPoint Eddsa Goldilocks.
From Verif Require Import Field Edwards Isogeny CombMul BaseTables Decode Ed448 Order Equation Facts Total Witness Sound Kernel Protocol.
From Verif Require Verify Samples.
Import ListNotations.
Open Scope Z_scope.

Definition nonce_prefix (xof : list Z -> nat -> list Z) (key : list Z) : list Z :=
  if enc_sign key then le_bytes 57 (secret_scalar key) else skipn 57 (xof key 114%nat).
(* what follows from a nonce whose multiple of B is not decodable *)
Lemma refused_nonce : forall xof, is_xof xof -> forall key message pub, length key = 57%nat -> bytes key ->
  ed448_derive_public xof key = Some pub -> decodable pub ->
  ~ decodable (eencode (emul (le_val (xof (rfc_dom ++ nonce_prefix xof key ++ message) 114%nat)) ebase)) ->
  exists sig, ed448_sign xof key message = Some sig /\ ed448_verify xof pub sig message = Some (Err DecodeSignatureError).
Proof.
  intros xof XOF key message pub L B Ep D N. destruct (sign_total xof XOF key message L B) as (sig & E). exists sig. split; [ exact E | ].
  destruct (sign_canonical xof XOF key message sig L B E) as (Ls & Bs & _).
  assert (F : firstn 57 sig = eencode (emul (le_val (xof (rfc_dom ++ nonce_prefix xof key ++ message) 114%nat)) ebase)).
  { rewrite sign_ok in E by assumption. apply some_inj in E. rewrite <- E. unfold nonce_prefix, rfc_sign, rfc_sign_with. cbv zeta.
    destruct (enc_sign key); rewrite firstn_app, eencode_len, Nat.sub_diag, firstn_O, app_nil_r; apply firstn_all2; rewrite eencode_len; apply Nat.le_refl. }
  assert (Bp : bytes pub).
  { rewrite derive_public_ok in Ep by assumption. apply some_inj in Ep. rewrite <- Ep. unfold rfc_public. destruct (enc_sign key); apply eencode_bytes. }
  apply (verify_errors xof XOF pub sig message Bp Bs). rewrite F. split; [ | split; [ exact D | split; [ rewrite Ls; apply Nat.le_refl | exact N ] ] ].
  intros [Z|Z].
  - rewrite derive_public_ok in Ep by assumption. apply some_inj in Ep. rewrite <- Ep in Z. unfold rfc_public in Z. destruct (enc_sign key); exact (eencode_not_zero _ Z).
  - apply (f_equal (firstn 57)) in Z. rewrite F in Z. exact (eencode_not_zero _ Z).
Qed.
Lemma bad_nonce_ok : length (le_bytes 114 bad_scalar) = 114%nat /\ bytes (le_bytes 114 bad_scalar) /\ le_val (le_bytes 114 bad_scalar) = bad_scalar.
Proof. split; [ apply le_bytes_length | ]. split; [ apply le_bytes_bytes | ]. vm_compute. reflexivity. Qed.
Theorem nonce_refused : forall xof, is_xof xof -> forall key message pub, length key = 57%nat -> bytes key ->
  ed448_derive_public xof key = Some pub -> (exists p, eddsa_like_decode pub = Some (Ok p)) ->
  exists xof' input sig, is_xof xof' /\ (forall x n, x <> input -> xof' x n = xof x n) /\ ed448_derive_public xof' key = Some pub /\
  ed448_sign xof' key message = Some sig /\ ed448_verify xof' pub sig message = Some (Err DecodeSignatureError).
Proof.
  intros xof XOF key message pub L B Ep D. destruct bad_nonce_ok as (Ln & Bn & Vn).
  set (input := rfc_dom ++ nonce_prefix xof key ++ message). set (xof' := programmed xof input (le_bytes 114 bad_scalar)).
  assert (X : is_xof xof') by (apply programmed_xof; assumption).
  assert (NE : key <> input).
  { intro E. apply (f_equal (@length Z)) in E. unfold input, nonce_prefix in E. rewrite !app_length, L in E. cbn [length rfc_dom] in E.
    destruct (enc_sign key); [ rewrite le_bytes_length in E | rewrite skipn_length, (proj1 (proj1 (XOF key) 114%nat)) in E ]; lia. }
  assert (K : xof' key 114%nat = xof key 114%nat) by (apply programmed_else; exact NE).
  assert (P : ed448_derive_public xof' key = Some pub).
  { rewrite derive_public_ok by assumption. rewrite derive_public_ok in Ep by assumption. rewrite <- Ep. unfold rfc_public. rewrite K. reflexivity. }
  assert (Q : nonce_prefix xof' key = nonce_prefix xof key) by (unfold nonce_prefix; rewrite K; reflexivity).
  assert (Lp : length pub = 57%nat /\ bytes pub).
  { rewrite derive_public_ok in Ep by assumption. apply some_inj in Ep. rewrite <- Ep. unfold rfc_public.
    destruct (enc_sign key); (split; [ apply eencode_len | apply eencode_bytes ]). }
  destruct (refused_nonce xof' X key message pub L B P) as (sig & E1 & E2).
  - destruct (Verify.decodable_dec pub) as [d|d]; [ exact d | ]. exfalso. destruct D as (p & D). destruct Lp as (Lp & Bp). rewrite (Verify.decode_bad pub Lp Bp d) in D. discriminate D.
  - rewrite Q. fold input. unfold xof'. rewrite programmed_at by exact Ln. rewrite Vn. exact bad_undecodable.
  - exists xof', input, sig. split; [ exact X | ]. split; [ intros x n Hx; apply programmed_else; exact Hx | ]. split; [ exact P | ]. split; [ exact E1 | exact E2 ].
Qed.
Lemma nonce_case : length Samples.key4 = 57%nat /\ bytes Samples.key4 /\
  ed448_derive_public Samples.xof1 Samples.key4 = Some (eencode (emul 4 ebase)) /\ exists p, eddsa_like_decode (eencode (emul 4 ebase)) = Some (Ok p).
Proof.
  destruct Samples.key4_ok as (L & B & _). split; [ exact L | ]. split; [ exact B | ].
  assert (P : ed448_derive_public Samples.xof1 Samples.key4 = Some (eencode (emul 4 ebase))) by (apply Samples.key4_public; exact Samples.xof1_xof).
  split; [ exact P | ]. apply (decode_iff (eencode (emul 4 ebase)) (eencode_bytes _)). apply decodable_eencode; [ apply emul_on; exact ebase_on | exact Samples.four_tests ].
Qed.
