(* A seed key whose signatures are refused: every seed, for a hash changed at this seed only. *)
From Coq Require Import ZArith List Bool Lia.
From Verif Require Import SpecField SpecBytes SpecScalar SpecCurve SpecDecode SpecEd448 SpecVerify SpecInternal SpecUniform SpecProtocol.
From Verif Require Import Base Bytes Errors ExtendedPoint Eddsa Goldilocks.
From Verif Require Import Field Edwards Isogeny CombMul BaseTables Decode Ed448 Order Equation Facts Total Witness Sound Kernel Protocol.
From Verif Require Samples Verify.
Import ListNotations.
Open Scope Z_scope.

(* what follows from a scalar whose multiple of B is not decodable *)
Lemma refused_scalar : forall xof, is_xof xof -> forall key, length key = 57%nat -> bytes key -> enc_sign key = false ->
  ~ decodable (eencode (emul (secret_scalar (xof key 114%nat)) ebase)) -> forall message, exists pub sig,
  ed448_derive_public xof key = Some pub /\ ed448_sign xof key message = Some sig /\ ed448_verify xof pub sig message = Some (Err DecodePubkeyError).
Proof.
  intros xof XOF key L B S N message. destruct (sign_total xof XOF key message L B) as (sig & E).
  destruct (sign_canonical xof XOF key message sig L B E) as (Ls & Bs & _). exists (eencode (emul (secret_scalar (xof key 114%nat)) ebase)), sig.
  assert (P : ed448_derive_public xof key = Some (eencode (emul (secret_scalar (xof key 114%nat)) ebase))).
  { rewrite derive_public_ok, S by assumption. reflexivity. }
  split; [ exact P | ]. split; [ exact E | ].
  apply (verify_errors xof XOF _ sig message (eencode_bytes _) Bs). split; [ | split; [ apply eencode_len | exact N ] ].
  intros [Z|Z].
  - exact (eencode_not_zero _ Z).
  - rewrite sign_ok, S in E by assumption. apply some_inj in E. rewrite Z in E. unfold rfc_sign, rfc_sign_with in E. cbv zeta in E.
    apply (f_equal (firstn 57)) in E. rewrite firstn_app, eencode_len, Nat.sub_diag, firstn_O, app_nil_r in E.
    rewrite firstn_all2 in E by (rewrite eencode_len; apply Nat.le_refl). exact (eencode_not_zero _ E).
Qed.
Lemma refused_decode : forall s, ~ decodable (eencode (emul s ebase)) -> eddsa_like_decode (eencode (emul s ebase)) = Some (Err DecodeError).
Proof. intros s N. apply Verify.decode_bad; [ apply eencode_len | apply eencode_bytes | exact N ]. Qed.
Definition bad_digest : list Z := bad_key ++ repeat 0 57.
Lemma bad_digest_ok : length bad_digest = 114%nat /\ bytes bad_digest /\ secret_scalar bad_digest = bad_scalar.
Proof.
  split; [ reflexivity | ]. split; [ unfold bad_digest; apply bytes_app; split; [ exact bad_key_bytes | apply Samples.bytes_repeat0 ] | ]. vm_compute. reflexivity.
Qed.
Theorem seed_refused : forall xof, is_xof xof -> forall key, length key = 57%nat -> bytes key -> enc_sign key = false ->
  exists xof', is_xof xof' /\ (forall x n, x <> key -> xof' x n = xof x n) /\ forall message, exists pub sig,
  ed448_derive_public xof' key = Some pub /\ ed448_sign xof' key message = Some sig /\ ed448_verify xof' pub sig message = Some (Err DecodePubkeyError).
Proof.
  intros xof XOF key L B S. destruct bad_digest_ok as (Ld & Bd & Sd). exists (programmed xof key bad_digest).
  assert (X : is_xof (programmed xof key bad_digest)) by (apply programmed_xof; assumption).
  split; [ exact X | ]. split; [ intros x n N; apply programmed_else; exact N | ]. apply refused_scalar; try assumption.
  rewrite programmed_at by exact Ld. rewrite Sd. exact bad_undecodable.
Qed.
Theorem seed_undecodable : forall xof, is_xof xof -> forall key, length key = 57%nat -> bytes key -> enc_sign key = false ->
  exists xof' pub, is_xof xof' /\ (forall x n, x <> key -> xof' x n = xof x n) /\
  ed448_derive_public xof' key = Some pub /\ eddsa_like_decode pub = Some (Err DecodeError).
Proof.
  intros xof XOF key L B S. destruct bad_digest_ok as (Ld & Bd & Sd). exists (programmed xof key bad_digest), (eencode (emul bad_scalar ebase)).
  assert (X : is_xof (programmed xof key bad_digest)) by (apply programmed_xof; assumption).
  split; [ exact X | ]. split; [ intros x n N; apply programmed_else; exact N | ]. split.
  - rewrite derive_public_ok, S by assumption. unfold rfc_public. rewrite programmed_at by exact Ld. rewrite Sd. reflexivity.
  - apply refused_decode. exact bad_undecodable.
Qed.
