(* Targets with a 32-bit usize compute what targets with a 64-bit usize compute. *)
From Coq Require Import ZArith List Bool Lia.
From Verif Require Import SpecBytes SpecDecode SpecEd448 SpecVerify SpecHex SpecInternal SpecApi.
From Verif Require Import Base Arith Bytes Errors Constants32 BigNumber ScalarModel ExtendedPoint Eddsa Goldilocks Lib Target32 TargetProofs ReleaseProofs ReleaseApi.
From Verif Require Import Ed448 Facts Api Blocks Claims Panics Samples.
Import ListNotations.
Open Scope Z_scope.

Lemma xof_len : forall H, is_xof H -> forall x n, length (H x n) = n.
Proof. intros H X x n. exact (proj1 (proj1 (X x) n)). Qed.
Local Opaque eddsa_like_decode w_eddsa_like_decode point_scalar_mul.
Lemma dsa_verify_short_w : forall H pub sig message, (length sig < 114)%nat -> (exists p, eddsa_like_decode pub = Some (Ok p)) -> w_dsa_verify H pub sig message = None.
Proof.
  intros H pub sig message L (p & D). unfold w_dsa_verify. rewrite (eddsa_like_decode_w pub _ D), bind_Some. cbv iota.
  destruct (point_scalar_mul p scalar_four) as [ p2 | ]; [ | reflexivity ]. rewrite bind_Some.
  assert (S2 : slice sig 57 (57 + 57) = None).
  { unfold slice. replace (Nat.leb (57 + 57) (length sig)) with false by (symmetry; apply Nat.leb_gt; exact L). rewrite andb_false_r. reflexivity. }
  rewrite S2. destruct (slice sig 0 57); reflexivity.
Qed.
Theorem verify_target : forall H, is_xof H -> forall pub sig message, bytes pub -> bytes sig ->
  w_ed448_verify H pub sig message = ed448_verify H pub sig message /\
  w_ed448_verify_with_error H pub sig message = ed448_verify_with_error H pub sig message.
Proof.
  intros H X pub sig message B1 B2. destruct (verify_panics H X pub sig message B1 B2) as (E & _).
  assert (K : bytes_eqb pub zero_public_key || bytes_eqb sig zero_signature = false -> w_dsa_verify H pub sig message = dsa_verify H pub sig message).
  { intro Z0. destruct (dsa_verify H pub sig message) as [ r | ] eqn:D; [ exact (dsa_verify_w H (xof_len H X) pub sig message r D) | ].
    assert (N : ed448_verify H pub sig message = None) by (unfold ed448_verify; rewrite Z0; exact D).
    apply (proj1 E) in N. destruct N as (_ & N & L). destruct (decode_iff pub B1) as (_ & C & _).
    exact (dsa_verify_short_w H pub sig message L (C N)). }
  unfold w_ed448_verify, ed448_verify, w_ed448_verify_with_error, ed448_verify_with_error.
  destruct (bytes_eqb pub zero_public_key || bytes_eqb sig zero_signature); [ split; reflexivity | ]. rewrite K by reflexivity. split; reflexivity.
Qed.
Theorem keys_target : forall H, is_xof H -> forall k v message, length k = 57%nat -> bytes k -> length v = 57%nat ->
  w_ed448_derive_public H k = ed448_derive_public H k /\ w_ed448_sign H k message = ed448_sign H k message /\
  w_private_to_public H k = private_to_public H k /\ w_sign_by_private H k message = sign_by_private H k message /\
  w_point_by_secret k = point_by_secret k /\ w_secret_to_public k = secret_to_public k /\
  (forall nonce, w_sign_with_secret_and_nonce H k nonce message = sign_with_secret_and_nonce H k nonce message) /\
  w_signing_from_secret H (SecretKey k) = signing_from_secret H (SecretKey k) /\ w_signing_random H k = signing_random H k /\
  w_sign_prehash H (SigningKey (SecretKey k) (VerifyingKey v)) message = sign_prehash H (SigningKey (SecretKey k) (VerifyingKey v)) message.
Proof.
  intros H X k v message L B Lv. destruct (never_panics H X k v message L B Lv) as (E1 & E2 & _ & E4 & E5 & E6 & E7 & E8 & E9 & E10 & E11).
  pose proof (xof_len H X) as XL. assert (S : small k) by (apply small_57; lia).
  repeat apply conj; try intro nonce; apply agree_eq;
    auto using ed448_derive_public_w, ed448_sign_w, private_to_public_w, sign_by_private_w, point_by_secret_w, secret_to_public_w, sign_with_secret_and_nonce_w, sign_prehash_w.
  - exact (signing_from_slice_w H XL k).
  - exact (signing_from_slice_w H XL k).
Qed.
Theorem input_target : forall H, is_xof H -> forall s f i,
  w_signing_from_str H s = signing_from_str H s /\ w_signing_deserialize H f i = signing_deserialize H f i /\
  (bytes s -> w_signing_from_slice H s = signing_from_slice H s /\ w_signing_from_bytes H s = signing_from_bytes H s).
Proof.
  intros H X s f i. pose proof (xof_len H X) as XL.
  assert (K : forall t, w_signing_from_str H t = signing_from_str H t).
  { intro t. destruct (signing_from_str H t) as [ r | ] eqn:E; [ exact (signing_from_str_w H XL t r E) | ].
    destruct (text_panics H X t) as (_ & _ & T & _ & _ & _ & T'). apply (proj1 T), (proj2 T') in E. unfold w_signing_from_str. rewrite E. reflexivity. }
  split; [ exact (K s) | ]. split.
  - unfold w_signing_deserialize, signing_deserialize. destruct (human_readable f); [ | reflexivity ]. destruct i as [ t | e ]; [ | reflexivity ]. rewrite K. reflexivity.
  - intro B. destruct (slice_panics H X s B) as (_ & _ & T & (r & E)). split; [ | rewrite E; exact (signing_from_bytes_w H XL s r E) ].
    destruct (signing_from_slice H s) as [ sk | ] eqn:D; [ exact (signing_from_slice_w H XL s sk D) | ].
    pose proof (proj1 T eq_refl) as D'. unfold w_signing_from_slice, to_array57.
    destruct (Z.eqb_spec (Z.of_nat (length s)) 57) as [ L | L ]; [ exfalso; lia | reflexivity ].
Qed.
(* the two targets do differ inside: a cast of a large number, and an index into a table with it *)
Lemma target_case : w_usize_half (2 ^ 32 + 6) = 3 /\ usize_half (2 ^ 32 + 6) = 2147483651 /\ w_chk_usize (2 ^ 32) = None /\ chk_usize (2 ^ 32) = Some (2 ^ 32).
Proof. repeat split; reflexivity. Qed.
