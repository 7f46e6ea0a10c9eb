(* Signatures counted in C91, and the signature made with a foreign public key stored beside the secret key. *)
From Coq Require Import ZArith List Bool Lia.
From Verif Require Import Base SpecField SpecBytes SpecScalar SpecCurve SpecDecode SpecEd448 SpecVerify SpecInternal SpecUniform SpecQueries SpecForger SpecRepeat.
From Verif Require Import Bytes Errors Eddsa Goldilocks Lib Game.
From Verif Require Samples.
From Verif Require Import Field Edwards Isogeny CombMul BaseTables PrimeQ Decode Ed448 Order Equation Facts Sound Kernel Uniform Count Bind Protocol Structure SmallKeys Queries Transcripts Unbias Forking Forger GameFork GameHop GameReal Complete GameExpanded Repeat RepeatCase Disclose.
Import ListNotations.
Open Scope Z_scope.
Local Opaque strings q448 ed448_verify ed448_sign ed448_derive_public emul eencode.

Lemma seed_signature : forall key d m T h a, In key seeds -> In d (strings 114) -> bytes_table T -> In h (strings 114) -> In a (strings 114) ->
  ed448_sign (table_xof ((key, d) :: (rfc_dom ++ skipn 57 d ++ m, h) :: (rfc_dom ++ eencode (emul (le_val h) ebase) ++ eencode (emul (secret_scalar d) ebase) ++ m, a) :: T)) key m =
  Some (signature (secret_scalar d) (le_val h) (le_val a)).
Proof.
  intros key d m T h a IK ID BT Ih Ia. apply (proj1 (seeds_in _)) in IK as (L & B & ES). apply (proj1 (in_strings 114 d)) in ID as (Ld & Bd).
  apply (signed_as key (skipn 57 d) m (secret_scalar d) [(key, d)] T); [ | exact BT | | | | | exact Ih | exact Ia ].
  - intros x b [ E | [] ]; injection E as <- <-; exact Bd.
  - rewrite skipn_length, Ld. reflexivity.
  - cbn [recall]. rewrite same_length; [ reflexivity | ]. rewrite !app_length, skipn_length, Ld, L. cbn [length rfc_dom]. lia.
  - intro r. cbn [recall]. rewrite same_length; [ reflexivity | ]. rewrite !app_length, !eencode_len, L. cbn [length rfc_dom]. lia.
  - intros h' a' X. rewrite (sign_ok _ X key m L B), ES. unfold rfc_sign, rfc_public.
    assert (E : table_xof ([(key, d)] ++ (rfc_dom ++ skipn 57 d ++ m, h') :: (rfc_dom ++ eencode (emul (le_val h') ebase) ++ eencode (emul (secret_scalar d) ebase) ++ m, a') :: T) key 114%nat = d).
    { apply table_at; [ cbn [app recall]; rewrite same_refl; reflexivity | exact Ld ]. }
    rewrite E. reflexivity.
Qed.
Lemma expanded_signature : forall key m T h a, In key expanded -> bytes_table T -> In h (strings 114) -> In a (strings 114) ->
  ed448_sign (table_xof ((rfc_dom ++ le_bytes 57 (secret_scalar key) ++ m, h) :: (rfc_dom ++ eencode (emul (le_val h) ebase) ++ eencode (emul (secret_scalar key) ebase) ++ m, a) :: T)) key m =
  Some (signature (secret_scalar key) (le_val h) (le_val a)).
Proof.
  intros key m T h a IK BT Ih Ia. apply (proj1 (expanded_in _)) in IK as (L & B & ES).
  apply (signed_as key (le_bytes 57 (secret_scalar key)) m (secret_scalar key) [] T); [ intros x b [] | exact BT | apply le_bytes_length | reflexivity | reflexivity | | exact Ih | exact Ia ].
  intros h' a' X. rewrite (sign_ok _ X key m L B), ES. reflexivity.
Qed.
Lemma one_is : le_val one = 1. Proof. vm_compute. reflexivity. Qed.
Lemma two_is : le_val two = 2. Proof. vm_compute. reflexivity. Qed.
Local Opaque one two Samples.seed Samples.key4.
(* nonce 1 and challenge 2 *)
Theorem seed_case : forall m T, bytes_table T -> let s := secret_scalar one in
  In Samples.seed seeds /\ In one (strings 114) /\ In two (strings 114) /\
  ed448_sign (table_xof ((Samples.seed, one) :: (rfc_dom ++ skipn 57 one ++ m, one) :: (rfc_dom ++ eencode ebase ++ eencode (emul s ebase) ++ m, two) :: T)) Samples.seed m =
    Some (eencode ebase ++ le_bytes 57 ((1 + 2 * s) mod q448)) /\
  In ((1 + 2 * s) mod q448) (below q448) /\ eadd (emul ((1 + 2 * s) mod q448) ebase) (eneg (emul 2 (emul s ebase))) = ebase.
Proof.
  intros m T BT s. split; [ exact seed_in | ]. split; [ exact one_in | ]. split; [ exact two_in | ]. split.
  - pose proof (seed_signature Samples.seed one m T one two seed_in one_in BT one_in two_in) as K. unfold signature in K. rewrite one_is, two_is, emul_1 in K. exact K.
  - split; [ apply (proj2 (in_below _ _)); apply Z.mod_pos_bound; reflexivity | ]. pose proof (copied_signature s 1 2) as K. unfold copied, signature in K. apply app_len_inj in K as (K & _); [ | rewrite !eencode_len; reflexivity ].
    rewrite emul_1 in K. apply eencode_inj in K; [ exact K | apply eadd_on; [ | apply eneg_on ]; repeat apply emul_on; exact ebase_on | exact ebase_on ].
Qed.
Theorem expanded_case : forall m T, bytes_table T -> let s := secret_scalar Samples.key4 in In Samples.key4 expanded /\
  ed448_sign (table_xof ((rfc_dom ++ le_bytes 57 s ++ m, one) :: (rfc_dom ++ eencode ebase ++ eencode (emul s ebase) ++ m, two) :: T)) Samples.key4 m =
    Some (eencode ebase ++ le_bytes 57 ((1 + 2 * s) mod q448)).
Proof.
  intros m T BT s. split; [ exact key4_in | ].
  pose proof (expanded_signature Samples.key4 m T one two key4_in BT one_in two_in) as K. unfold signature in K. rewrite one_is, two_is, emul_1 in K. exact K.
Qed.

(* the stored public key is copied, and not used otherwise *)
Theorem stored_key : forall xof, is_xof xof -> forall k v message, length k = 57%nat -> bytes k -> length v = 57%nat ->
  exists sig, ed448_sign xof k message = Some sig /\ length sig = 114%nat /\ sign_prehash xof (SigningKey (SecretKey k) (VerifyingKey v)) message = Some (Ok (Signature (sig ++ v))).
Proof.
  intros xof X k v message L B LV.
  assert (E : exists sig, ed448_sign xof k message = Some sig /\ length sig = 114%nat).
  { rewrite sign_ok by assumption. eexists. split; [ reflexivity | ]. unfold rfc_sign, rfc_sign_with. destruct (enc_sign k); cbv zeta; rewrite app_length, eencode_len, le_bytes_length; reflexivity. }
  destruct E as (sig & E & LS). exists sig. split; [ exact E | split; [ exact LS | ] ]. unfold sign_prehash. cbn [sg_secret sk_key sg_verifying vk_key]. rewrite E. cbv beta iota delta [bind]. rewrite LS, LV. reflexivity.
Qed.
Lemma base_length : length (eencode ebase) = 57%nat. Proof. apply eencode_len. Qed.
