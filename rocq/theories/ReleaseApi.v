(* Release builds and debug builds: the public functions. *)
From Coq Require Import ZArith List Bool Lia.
From Verif Require Import SpecBytes SpecDecode SpecEd448 SpecVerify SpecHex SpecInternal SpecApi.
From Verif Require Import Base Arith Bytes Errors Constants32 BigNumber ScalarModel ExtendedPoint Eddsa Goldilocks Lib Release ReleaseProofs.
From Verif Require Import Ed448 Facts Api Blocks Claims Panics Samples.
Import ListNotations.
Open Scope Z_scope.

Local Opaque eddsa_like_decode r_eddsa_like_decode point_scalar_mul r_point_scalar_mul.
Lemma dsa_verify_short : forall H pub sig message, (length sig < 114)%nat -> dsa_verify H pub sig message = None -> (exists p, eddsa_like_decode pub = Some (Ok p)) ->
  r_dsa_verify H pub sig message = None.
Proof.
  intros H pub sig message L E (p & D). unfold r_dsa_verify. rewrite (eddsa_like_decode_ag pub _ D), bind_Some. cbv iota.
  destruct (r_point_scalar_mul p scalar_four) as [ p2 | ]; [ | reflexivity ]. rewrite bind_Some.
  assert (S2 : slice sig 57 (57 + 57) = None).
  { unfold slice. replace (Nat.leb (57 + 57) (length sig)) with false by (symmetry; apply Nat.leb_gt; exact L). rewrite andb_false_r. reflexivity. }
  rewrite S2. destruct (slice sig 0 57); reflexivity.
Qed.
Theorem verify_release : forall H, is_xof H -> forall pub sig message, bytes pub -> bytes sig ->
  r_ed448_verify H pub sig message = ed448_verify H pub sig message /\
  r_ed448_verify_with_error H pub sig message = ed448_verify_with_error H pub sig message.
Proof.
  intros H X pub sig message B1 B2. destruct (verify_panics H X pub sig message B1 B2) as (E & _).
  assert (K : bytes_eqb pub zero_public_key || bytes_eqb sig zero_signature = false -> r_dsa_verify H pub sig message = dsa_verify H pub sig message).
  { intro Z0. destruct (dsa_verify H pub sig message) as [ r | ] eqn:D; [ exact (dsa_verify_ag H pub sig message r D) | ].
    assert (N : ed448_verify H pub sig message = None) by (unfold ed448_verify; rewrite Z0; exact D).
    apply (proj1 E) in N. destruct N as (_ & N & L). destruct (decode_iff pub B1) as (_ & C & _).
    exact (dsa_verify_short H pub sig message L D (C N)). }
  unfold r_ed448_verify, ed448_verify, r_ed448_verify_with_error, ed448_verify_with_error.
  destruct (bytes_eqb pub zero_public_key || bytes_eqb sig zero_signature); [ split; reflexivity | ]. rewrite K by reflexivity. split; reflexivity.
Qed.
Lemma agree_eq : forall A (a b : option A), agrees a b -> a <> None -> b = a.
Proof. intros A [ x | ] b G N; [ exact (G x eq_refl) | exfalso; exact (N eq_refl) ]. Qed.
Theorem keys_release : forall H, is_xof H -> forall k v message, length k = 57%nat -> bytes k -> length v = 57%nat ->
  r_ed448_derive_public H k = ed448_derive_public H k /\ r_ed448_sign H k message = ed448_sign H k message /\
  r_private_to_public H k = private_to_public H k /\ r_sign_by_private H k message = sign_by_private H k message /\
  r_point_by_secret k = point_by_secret k /\ r_secret_to_public k = secret_to_public k /\
  (forall nonce, r_sign_with_secret_and_nonce H k nonce message = sign_with_secret_and_nonce H k nonce message) /\
  r_signing_from_secret H (SecretKey k) = signing_from_secret H (SecretKey k) /\ r_signing_random H k = signing_random H k /\
  r_sign_prehash H (SigningKey (SecretKey k) (VerifyingKey v)) message = sign_prehash H (SigningKey (SecretKey k) (VerifyingKey v)) message.
Proof.
  intros H X k v message L B Lv. destruct (never_panics H X k v message L B Lv) as (E1 & E2 & _ & E4 & E5 & E6 & E7 & E8 & E9 & E10 & E11).
  repeat apply conj; try intro nonce; apply agree_eq; auto with rel.
Qed.
Theorem input_release : forall H, is_xof H -> forall s f i,
  r_signing_from_str H s = signing_from_str H s /\ r_signing_deserialize H f i = signing_deserialize H f i /\
  (bytes s -> r_signing_from_slice H s = signing_from_slice H s /\ r_signing_from_bytes H s = signing_from_bytes H s).
Proof.
  intros H X s f i.
  assert (K : forall t, r_signing_from_str H t = signing_from_str H t).
  { intro t. destruct (signing_from_str H t) as [ r | ] eqn:E; [ exact (signing_from_str_ag H t r E) | ].
    destruct (text_panics H X t) as (_ & _ & T & _ & _ & _ & T'). apply (proj1 T), (proj2 T') in E. unfold r_signing_from_str. rewrite E. reflexivity. }
  split; [ exact (K s) | ]. split.
  - unfold r_signing_deserialize, signing_deserialize. destruct (human_readable f); [ | reflexivity ]. destruct i as [ t | e ]; [ | reflexivity ]. rewrite K. reflexivity.
  - intro B. destruct (slice_panics H X s B) as (_ & _ & T & (r & E)). split; [ | rewrite E; exact (signing_from_bytes_ag H s r E) ].
    destruct (signing_from_slice H s) as [ sk | ] eqn:D; [ exact (signing_from_slice_ag H s sk D) | ].
    apply (proj1 T) in D || pose proof (proj1 T eq_refl) as D'. unfold r_signing_from_slice, to_array57.
    destruct (Z.eqb_spec (Z.of_nat (length s)) 57) as [ L | L ]; [ exfalso; lia | reflexivity ].
Qed.
(* the two builds do differ inside: a bias too large for 32 bits *)
Lemma release_case : bias BIG_ZERO 17 = None /\ r_bias BIG_ZERO 17 <> None.
Proof. split; [ reflexivity | discriminate ]. Qed.
