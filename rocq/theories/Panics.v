(* Which public functions panic, and on which inputs. *)
From Coq Require Import ZArith List Bool Lia.
From Verif Require Import SpecField SpecBytes SpecScalar SpecCurve SpecDecode SpecEd448 SpecVerify SpecHex SpecInternal SpecShake SpecApi.
From Verif Require Import Base Arith Bytes Errors Eddsa Goldilocks Lib.
From Verif Require Import Edwards Ed448 Facts Shake Api Blocks Claims Witness Samples.
Import ListNotations.
Open Scope Z_scope.

Local Opaque dsa_verify.
Lemma with_error_none : forall H pub sig message, ed448_verify_with_error H pub sig message = None <-> ed448_verify H pub sig message = None.
Proof.
  intros H pub sig message. unfold ed448_verify_with_error, ed448_verify. destruct (bytes_eqb pub zero_public_key || bytes_eqb sig zero_signature); [ split; intro E; discriminate E | ].
  destruct (dsa_verify H pub sig message) as [ [ [|] | e ] | ]; cbn [bind negb]; split; intro E; try discriminate E; reflexivity.
Qed.
Theorem verify_panics : forall H, is_xof H -> forall pub sig message, bytes pub -> bytes sig ->
  let bad := ~ zero_input pub sig /\ decodable pub /\ (length sig < 114)%nat in
  (ed448_verify H pub sig message = None <-> bad) /\ (ed448_verify_with_error H pub sig message = None <-> bad).
Proof.
  intros H X pub sig message B1 B2 bad. destruct (verify_errors H X pub sig message B1 B2) as (_ & _ & _ & E & _).
  split; [ exact E | ]. exact (iff_trans (with_error_none H pub sig message) E).
Qed.
Theorem text_panics : forall H, is_xof H -> forall s,
  let bad := ~ (length s = 114%nat /\ Forall is_digit s) in
  (secret_from_str s = None <-> bad) /\ (verifying_from_str s = None <-> bad) /\ (signing_from_str H s = None <-> bad) /\
  (secret_deserialize (Format true) (Ok s) = None <-> bad) /\ (verifying_deserialize (Format true) (Ok s) = None <-> bad) /\
  (signing_deserialize H (Format true) (Ok s) = None <-> bad) /\ (hex_to_private_key s = None <-> bad).
Proof.
  intros H X s bad. destruct (from_str_panics s) as (E1 & E2). destruct (signing_from_str_iff H X s) as (_ & E3).
  destruct (deserialize_panic_iff H X s) as (E4 & E5 & E6). split; [ exact E1 | ]. split; [ exact E2 | ]. split; [ exact E3 | ]. split; [ exact E4 | ].
  split; [ exact E5 | ]. split; [ exact E6 | ]. refine (iff_trans _ E1). unfold secret_from_str. destruct (hex_to_private_key s); cbn [bind]; split; intro K; try discriminate K; reflexivity.
Qed.
Theorem slice_panics : forall H, is_xof H -> forall k, bytes k ->
  (secret_from_bytes k = None <-> length k <> 57%nat) /\ (verifying_from_bytes k = None <-> length k <> 57%nat) /\
  (signing_from_slice H k = None <-> length k <> 57%nat) /\ (exists r, signing_from_bytes H k = Some r).
Proof.
  intros H X k B. destruct (from_bytes_iff k k) as (_ & _ & E1 & E2). split; [ exact E1 | ]. split; [ exact E2 | ].
  destruct (Nat.eq_dec (length k) 57) as [ L | L ].
  - destruct (signing_from_slice_ok H X k L B) as (sk & _ & E3 & E4 & _). rewrite E3, E4. split; [ | exists (Ok sk); reflexivity ].
    split; [ intro K; discriminate K | intro K; exfalso; exact (K L) ].
  - destruct (signing_bad_length H k L) as (E4 & E3). rewrite E3, E4. split; [ split; [ intros _; exact L | reflexivity ] | eexists; reflexivity ].
Qed.
Lemma to_some : forall (A : Type) (x : option A) y, x = Some y -> x <> None.
Proof. intros A x y E. rewrite E. discriminate. Qed.
Theorem never_panics : forall H, is_xof H -> forall k v message, length k = 57%nat -> bytes k -> length v = 57%nat ->
  ed448_derive_public H k <> None /\ ed448_sign H k message <> None /\
  private_to_secret H k <> None /\ private_to_public H k <> None /\ sign_by_private H k message <> None /\
  point_by_secret k <> None /\ secret_to_public k <> None /\ (forall nonce, sign_with_secret_and_nonce H k nonce message <> None) /\
  signing_from_secret H (SecretKey k) <> None /\ signing_random H k <> None /\
  sign_prehash H (SigningKey (SecretKey k) (VerifyingKey v)) message <> None.
Proof.
  intros H X k v message L B Lv. destruct (blocks H X k message) as (E1 & E2 & E3). destruct (E3 L B) as (E4 & E5).
  destruct (signing_from_slice_ok H X k L B) as (sk & _ & _ & _ & E6 & E7 & _).
  destruct (point_by_secret_exact k L B) as (p & m & E8 & _).
  pose proof (sign_ok H X k message L B) as E9.
  split; [ exact (to_some _ _ _ (derive_public_ok H X k L B)) | ]. split; [ exact (to_some _ _ _ E9) | ].
  split; [ exact (to_some _ _ _ (private_to_secret_exact H X k)) | ]. split; [ exact (to_some _ _ _ E1) | ]. split; [ exact (to_some _ _ _ E2) | ].
  split; [ exact (to_some _ _ _ E8) | ]. split; [ exact (to_some _ _ _ E4) | ]. split; [ intro nonce; exact (to_some _ _ _ (E5 nonce)) | ].
  split; [ exact (to_some _ _ _ E6) | ]. split; [ exact (to_some _ _ _ E7) | ].
  unfold sign_prehash. cbn [sg_secret sk_key sg_verifying vk_key]. 
  destruct (sign_canonical H X k message _ L B E9) as (Ls & _). rewrite E9, bind_Some. rewrite Ls, Lv. change ((Z.of_nat 114 =? 114) && (Z.of_nat 57 =? 57)) with true. cbv iota. discriminate.
Qed.
(* no public function panics: false for each of these *)
Theorem panics_refuted : forall H, is_xof H -> exists pub sig, bytes pub /\ bytes sig /\
  (forall message, ed448_verify H pub sig message = None /\ ed448_verify_with_error H pub sig message = None) /\
  secret_from_str [] = None /\ verifying_from_str [] = None /\ signing_from_str H [] = None /\
  secret_from_bytes [] = None /\ verifying_from_bytes [] = None /\ signing_from_slice H [] = None /\
  hex_to_message_hash [] = None /\ hex_to_private_key [] = None /\ hex_to_signature [] = None.
Proof.
  intros H X. destruct (length_refuted H X) as (pub & short & long & L1 & L2 & B1 & B2 & B3 & E). exists pub, short.
  split; [ exact B1 | ]. split; [ exact B2 | ]. split; [ | repeat split; reflexivity ].
  intro message. destruct (E message) as (E1 & _). split; [ exact E1 | ]. apply with_error_none. exact E1.
Qed.
Lemma panics_case : exists s, length s = 114%nat /\ Forall is_digit s /\ ~ (length (@nil Z) = 114%nat /\ Forall is_digit []) /\
  length seed = 57%nat /\ bytes seed /\ ~ zero_input (eencode ebase) [] /\ decodable (eencode ebase).
Proof.
  exists (lower_text seed). destruct digits_case as (L & D). split; [ exact L | ]. split; [ exact D | ]. split; [ intros (K & _); discriminate K | ].
  destruct seed_ok as (Ls & Bs & _). split; [ exact Ls | ]. split; [ exact Bs | ]. split; [ | exact base_decodable ].
  intros [ K | K ]; [ exact (base_not_zero K) | discriminate K ].
Qed.
