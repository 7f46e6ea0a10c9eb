(* lib.rs: keys from and to text, constructors, sign_prehash. *)
From Coq Require Import ZArith List Bool Lia.
From Verif Require Import SpecField SpecBytes SpecScalar SpecCurve SpecDecode SpecEd448 SpecHex Base Arith Bytes Errors Eddsa Goldilocks Lib SpecApi.
From Verif Require Import Decode Ed448 Verify Equation Facts.
Import ListNotations.
Open Scope Z_scope.

(* digits *)
Definition byte_table : list Z := map Z.of_nat (seq 0 256).
Lemma digit_iff : forall c v, hex_val c = Some v <-> digit c v.
Proof.
  intros c v. split; intro H.
  - unfold hex_val in H. destruct ((48 <=? c) && (c <=? 57)) eqn:E1; [ | destruct ((97 <=? c) && (c <=? 102)) eqn:E2; [ | destruct ((65 <=? c) && (c <=? 70)) eqn:E3; [ | discriminate H ] ] ].
    + apply andb_prop in E1. destruct E1 as (A & B). apply Z.leb_le in A, B. injection H as <-.
      assert (C : c = 48 \/ c = 49 \/ c = 50 \/ c = 51 \/ c = 52 \/ c = 53 \/ c = 54 \/ c = 55 \/ c = 56 \/ c = 57) by lia.
      repeat (destruct C as [->|C]); [ exists 0%nat | exists 1%nat | exists 2%nat | exists 3%nat | exists 4%nat | exists 5%nat | exists 6%nat | exists 7%nat | exists 8%nat | subst c; exists 9%nat ]; split; (reflexivity || left; reflexivity).
    + apply andb_prop in E2. destruct E2 as (A & B). apply Z.leb_le in A, B. injection H as <-.
      assert (C : c = 97 \/ c = 98 \/ c = 99 \/ c = 100 \/ c = 101 \/ c = 102) by lia.
      repeat (destruct C as [->|C]); [ exists 10%nat | exists 11%nat | exists 12%nat | exists 13%nat | exists 14%nat | subst c; exists 15%nat ]; split; (reflexivity || left; reflexivity).
    + apply andb_prop in E3. destruct E3 as (A & B). apply Z.leb_le in A, B. injection H as <-.
      assert (C : c = 65 \/ c = 66 \/ c = 67 \/ c = 68 \/ c = 69 \/ c = 70) by lia.
      repeat (destruct C as [->|C]); [ exists 10%nat | exists 11%nat | exists 12%nat | exists 13%nat | exists 14%nat | subst c; exists 15%nat ]; split; (reflexivity || right; reflexivity).
  - destruct H as (n & -> & H). assert (N : (n < 16)%nat).
    { destruct H as [H|H]; (assert (nth_error lower_digits n <> None \/ nth_error upper_digits n <> None) as [K|K] by (rewrite H; (left; discriminate) || (right; discriminate)); apply nth_error_Some in K; exact K). }
    do 16 (destruct n as [|n]; [ destruct H as [H|H]; injection H as <-; reflexivity | ]). lia.
Qed.
Lemma hex_bytes_iff : forall b s, hex_bytes s = Some b <-> spells s b.
Proof.
  intros b s. split.
  - assert (K : forall n s b, (length s <= n)%nat -> hex_bytes s = Some b -> spells s b).
    { clear. induction n as [|n IH]; intros [|c1 [|c2 s]] b L H; cbn [length] in L; try lia; cbn [hex_bytes] in H; try discriminate H.
      - injection H as <-. constructor.
      - injection H as <-. constructor.
      - destruct (hex_val c1) as [h|] eqn:E1; [ | discriminate H ]. destruct (hex_val c2) as [l|] eqn:E2; [ | discriminate H ].
        destruct (hex_bytes s) as [r|] eqn:E3; [ | discriminate H ]. cbn [bind] in H. injection H as <-.
        rewrite Z.mul_comm. constructor; [ apply digit_iff; exact E1 | apply digit_iff; exact E2 | apply IH; [ lia | exact E3 ] ]. }
    apply (K (length s)). apply Nat.le_refl.
  - induction 1 as [|c1 c2 h l s b H1 H2 H3 IH]; [ reflexivity | ]. cbn [hex_bytes].
    apply digit_iff in H1. apply digit_iff in H2. rewrite H1, H2, IH. cbn [bind]. rewrite Z.mul_comm. reflexivity.
Qed.
Lemma spells_length : forall s b, spells s b -> length s = (2 * length b)%nat.
Proof. induction 1; cbn [length]; lia. Qed.
Lemma spells_fun : forall s b b', spells s b -> spells s b' -> b = b'.
Proof. intros s b b' H1 H2. apply hex_bytes_iff in H1. apply hex_bytes_iff in H2. congruence. Qed.
Lemma digit_range : forall c v, digit c v -> 0 <= v < 16.
Proof.
  intros c v (n & -> & H). assert (N : (n < 16)%nat); [ | lia ].
  destruct H as [H|H].
  - assert (K : nth_error lower_digits n <> None) by congruence. apply nth_error_Some in K. exact K.
  - assert (K : nth_error upper_digits n <> None) by congruence. apply nth_error_Some in K. exact K.
Qed.
Lemma spells_bytes : forall s b, spells s b -> bytes b.
Proof.
  induction 1 as [|c1 c2 h l s b H1 H2 H3 IH]; constructor; [ | exact IH ].
  apply digit_range in H1. apply digit_range in H2. unfold byte. lia.
Qed.
Lemma lower_spells : forall b, bytes b -> spells (lower_text b) b.
Proof.
  induction 1 as [|x b Hx Hb IH]; [ constructor | ]. unfold lower_text. cbn [map concat app]. unfold byte in Hx.
  assert (D : forall v, 0 <= v < 16 -> digit (nth (Z.to_nat v) lower_digits 0) v).
  { intros v Hv. exists (Z.to_nat v). split; [ lia | ]. left. apply nth_error_nth'. change (length lower_digits) with 16%nat. lia. }
  assert (E : x = 16 * (x / 16) + x mod 16) by (apply Z.div_mod; lia).
  rewrite E at 3. constructor; [ apply D | apply D | exact IH ].
  - split; [ apply Z.div_pos; lia | apply Z.div_lt_upper_bound; lia ].
  - apply Z.mod_pos_bound. lia.
Qed.
Lemma hex_encode_ok : forall b, bytes b -> hex_encode b = lower_text b.
Proof.
  induction 1 as [|x b Hx Hb IH]; [ reflexivity | ]. unfold hex_encode, lower_text in *. cbn [flat_map map concat]. rewrite IH. f_equal.
  unfold byte in Hx. rewrite Z.shiftr_div_pow2 by lia. change (2 ^ 4) with 16. change (Z.land x 15) with (Z.land x (Z.ones 4)). rewrite Z.land_ones by lia. change (2 ^ 4) with 16.
  assert (D : forall v, 0 <= v < 16 -> hex_digit v = nth (Z.to_nat v) lower_digits 0).
  { intros v Hv. assert (C : exists n, v = Z.of_nat n /\ (n < 16)%nat) by (exists (Z.to_nat v); lia). destruct C as (n & -> & Hn). rewrite Nat2Z.id.
    do 16 (destruct n as [|n]; [ reflexivity | ]). lia. }
  rewrite !D; [ reflexivity | apply Z.mod_pos_bound; lia | ]. split; [ apply Z.div_pos; lia | apply Z.div_lt_upper_bound; lia ].
Qed.
Lemma hex_key_iff : forall s k, hex_to_private_key s = Some k <-> spells s k /\ length k = 57%nat.
Proof.
  intros s k. unfold hex_to_private_key, hex_decode_to_slice. destruct (Z.eqb_spec (Z.of_nat (length s)) (2 * 57)) as [E|E].
  - rewrite hex_bytes_iff. split; [ intro H; split; [ exact H | ] | intros (H & _); exact H ]. apply spells_length in H. lia.
  - split; [ discriminate | ]. intros (H & L). apply spells_length in H. lia.
Qed.
Lemma spells_ex : forall n s, length s = (2 * n)%nat -> Forall is_digit s -> exists b, spells s b.
Proof.
  induction n as [|n IH]; intros s L H.
  - destruct s; [ exists []; constructor | discriminate L ].
  - destruct s as [|c1 [|c2 s]]; cbn [length] in L; try lia. inversion H as [|? ? (h & H1) H']; subst. inversion H' as [|? ? (l & H2) H3]; subst.
    destruct (IH s ltac:(lia) H3) as (b & Hb). exists (16 * h + l :: b). constructor; assumption.
Qed.
Lemma spells_digits : forall s b, spells s b -> Forall is_digit s.
Proof. induction 1; [ constructor | ]. repeat (constructor; [ eexists; eassumption | ]). assumption. Qed.
Lemma hex_key_none : forall s, hex_to_private_key s = None <-> ~ (length s = 114%nat /\ Forall is_digit s).
Proof.
  intro s. destruct (hex_to_private_key s) as [k|] eqn:E.
  - apply hex_key_iff in E. destruct E as (E & L). split; [ discriminate | ]. intro N. exfalso. apply N.
    split; [ apply spells_length in E; lia | apply (spells_digits s k); exact E ].
  - split; [ | reflexivity ]. intros _ (L & D). destruct (spells_ex 57 s L D) as (b & Hb).
    assert (K : hex_to_private_key s = Some b) by (apply hex_key_iff; split; [ exact Hb | apply spells_length in Hb; lia ]). congruence.
Qed.
Theorem secret_from_str_iff : forall s k, secret_from_str s = Some (SecretKey k) <-> spells s k /\ length k = 57%nat.
Proof.
  intros s k. rewrite <- hex_key_iff. unfold secret_from_str. destruct (hex_to_private_key s) as [k'|]; cbn [bind]; split; intro H; congruence.
Qed.
Theorem verifying_from_str_iff : forall s k, verifying_from_str s = Some (VerifyingKey k) <-> spells s k /\ length k = 57%nat.
Proof.
  intros s k. rewrite <- hex_key_iff. unfold verifying_from_str. destruct (hex_to_private_key s) as [k'|]; cbn [bind]; split; intro H; congruence.
Qed.
Theorem from_str_panics : forall s, let bad := ~ (length s = 114%nat /\ Forall is_digit s) in
  (secret_from_str s = None <-> bad) /\ (verifying_from_str s = None <-> bad).
Proof.
  intro s. cbv zeta. rewrite <- hex_key_none. unfold secret_from_str, verifying_from_str.
  destruct (hex_to_private_key s); cbn [bind]; split; split; intro H; congruence.
Qed.
Lemma to_array_iff : forall k k', to_array57 k = Some k' <-> k' = k /\ length k = 57%nat.
Proof.
  intros k k'. unfold to_array57. destruct (Z.eqb_spec (Z.of_nat (length k)) 57) as [E|E]; split.
  - intro H. injection H as <-. split; [ reflexivity | lia ].
  - intros (-> & _). reflexivity.
  - discriminate.
  - intros (_ & L). lia.
Qed.
Lemma to_array_none : forall k, to_array57 k = None <-> length k <> 57%nat.
Proof. intro k. unfold to_array57. destruct (Z.eqb_spec (Z.of_nat (length k)) 57) as [E|E]; split; intro H; try discriminate; try reflexivity; lia. Qed.
Theorem from_bytes_iff : forall k k',
  (secret_from_bytes k = Some (SecretKey k') <-> k' = k /\ length k = 57%nat) /\
  (verifying_from_bytes k = Some (VerifyingKey k') <-> k' = k /\ length k = 57%nat) /\
  (secret_from_bytes k = None <-> length k <> 57%nat) /\ (verifying_from_bytes k = None <-> length k <> 57%nat).
Proof.
  intros k k'. rewrite <- to_array_iff, <- to_array_none. unfold secret_from_bytes, verifying_from_bytes.
  destruct (to_array57 k); cbn [bind]; repeat split; intro H; congruence.
Qed.

Section Hash.
Variable xof : list Z -> nat -> list Z.
Hypothesis XOF : is_xof xof.

Local Notation keypair := (SpecApi.keypair xof).
Lemma derive_some : forall k, length k = 57%nat -> bytes k -> exists pub, ed448_derive_public xof k = Some pub /\ length pub = 57%nat /\ bytes pub.
Proof.
  intros k L B. rewrite derive_public_ok by assumption. destruct (enc_sign k); eexists; (split; [ reflexivity | ]);
    (split; [ apply eencode_len | apply eencode_bytes ]).
Qed.
Lemma keypair_fun : forall k a b, keypair k a -> keypair k b -> a = b.
Proof.
  intros k [[a1] [a2]] [[b1] [b2]] (_ & _ & H1 & _ & H2) (_ & _ & H1' & _ & H2').
  unfold to_bytes, as_bytes, get_verifying_key in *. cbn in *. congruence.
Qed.
Theorem signing_from_slice_ok : forall k, length k = 57%nat -> bytes k ->
  exists sk, keypair k sk /\ signing_from_slice xof k = Some sk /\ signing_from_bytes xof k = Some (Ok sk) /\
    signing_from_secret xof (SecretKey k) = Some sk /\ signing_random xof k = Some sk /\
    forall s, spells s k -> signing_from_str xof s = Some sk.
Proof.
  intros k L B. destruct (derive_some k L B) as (pub & E & _).
  assert (A : to_array57 k = Some k) by (apply to_array_iff; auto).
  assert (S : signing_from_slice xof k = Some (SigningKey (SecretKey k) (VerifyingKey pub))).
  { unfold signing_from_slice. rewrite A, bind_Some. cbv beta. rewrite E, bind_Some. reflexivity. }
  exists (SigningKey (SecretKey k) (VerifyingKey pub)).
  split; [ unfold SpecApi.keypair, to_bytes, get_secret_key, as_bytes, get_verifying_key; cbn [sg_secret sg_verifying sk_key vk_key]; rewrite E; auto | ].
  split; [ exact S | ]. split.
  { unfold signing_from_bytes. rewrite L. change (Z.of_nat 57 =? 57) with true. cbn [negb]. rewrite A, bind_Some. cbv beta. rewrite E, bind_Some. reflexivity. }
  split; [ exact S | ]. split; [ exact S | ].
  intros s H. unfold signing_from_str. assert (K : hex_to_private_key s = Some k) by (apply hex_key_iff; auto).
  rewrite K, bind_Some. cbv beta. rewrite E, bind_Some. reflexivity.
Qed.
Theorem signing_bad_length : forall k, length k <> 57%nat ->
  signing_from_bytes xof k = Some (Err (InvalidPrivKeyLengthErrro (Z.of_nat (length k)))) /\ signing_from_slice xof k = None.
Proof.
  intros k L. split.
  - unfold signing_from_bytes. destruct (Z.eqb_spec (Z.of_nat (length k)) 57) as [E|E]; [ lia | reflexivity ].
  - unfold signing_from_slice. rewrite (proj2 (to_array_none k) L). reflexivity.
Qed.
Theorem signing_from_str_iff : forall s, 
  (forall sk, signing_from_str xof s = Some sk <-> exists k, spells s k /\ keypair k sk) /\
  (signing_from_str xof s = None <-> ~ (length s = 114%nat /\ Forall is_digit s)).
Proof.
  intro s. rewrite <- hex_key_none. destruct (hex_to_private_key s) as [k|] eqn:E.
  - pose proof (proj1 (hex_key_iff s k) E) as (H & L). pose proof (spells_bytes s k H) as B.
    destruct (signing_from_slice_ok k L B) as (sk & K & _ & _ & _ & _ & S). specialize (S s H). rewrite S. split.
    + intro sk'. split.
      * intro Q. injection Q as <-. exists k. auto.
      * intros (k' & H' & K'). rewrite (spells_fun s k' k H' H) in K'. rewrite (keypair_fun k sk sk' K K'). reflexivity.
    + split; discriminate.
  - assert (S : signing_from_str xof s = None) by (unfold signing_from_str; rewrite E; reflexivity). rewrite S. split; [ | split; reflexivity ].
    intro sk. split; [ discriminate | ]. intros (k & H & K). assert (Q : hex_to_private_key s = Some k) by (apply hex_key_iff; split; [ exact H | apply K ]). congruence.
Qed.

(* serde *)
Theorem serde_round_trip : forall k, length k = 57%nat -> bytes k ->
  secret_serialize (Format true) (SecretKey k) = lower_text k /\
  verifying_serialize (Format true) (VerifyingKey k) = lower_text k /\
  secret_deserialize (Format true) (Ok (lower_text k)) = Some (Ok (SecretKey k)) /\
  verifying_deserialize (Format true) (Ok (lower_text k)) = Some (Ok (VerifyingKey k)) /\
  forall sk, keypair k sk -> signing_serialize (Format true) sk = lower_text k /\
    signing_deserialize xof (Format true) (Ok (lower_text k)) = Some (Ok sk).
Proof.
  intros k L B. pose proof (lower_spells k B) as H.
  split; [ exact (hex_encode_ok k B) | ]. split; [ exact (hex_encode_ok k B) | ].
  assert (K : secret_from_str (lower_text k) = Some (SecretKey k)) by (apply secret_from_str_iff; auto).
  assert (K2 : verifying_from_str (lower_text k) = Some (VerifyingKey k)) by (apply verifying_from_str_iff; auto).
  split; [ unfold secret_deserialize; cbn [human_readable]; rewrite K; reflexivity | ].
  split; [ unfold verifying_deserialize; cbn [human_readable]; rewrite K2; reflexivity | ].
  intros sk P. split.
  - unfold signing_serialize. destruct P as (_ & _ & P & _). unfold to_bytes in P. rewrite P. exact (hex_encode_ok k B).
  - unfold signing_deserialize. cbn [human_readable].
    assert (Q : signing_from_str xof (lower_text k) = Some sk) by (apply signing_from_str_iff; exists k; auto). rewrite Q. reflexivity.
Qed.
Theorem serde_binary : forall input,
  secret_deserialize (Format false) input = Some (Err tt) /\ verifying_deserialize (Format false) input = Some (Err tt) /\
  signing_deserialize xof (Format false) input = Some (Err tt).
Proof. intro input. repeat split. Qed.
Theorem serde_error : forall e,
  secret_deserialize (Format true) (Err e) = Some (Err e) /\ verifying_deserialize (Format true) (Err e) = Some (Err e) /\
  signing_deserialize xof (Format true) (Err e) = Some (Err e).
Proof. intro e. repeat split. Qed.
(* deserialization panics exactly on text that is not 114 hex digits *)
Theorem deserialize_panic_iff : forall s, let bad := ~ (length s = 114%nat /\ Forall is_digit s) in
  (secret_deserialize (Format true) (Ok s) = None <-> bad) /\ (verifying_deserialize (Format true) (Ok s) = None <-> bad) /\
  (signing_deserialize xof (Format true) (Ok s) = None <-> bad).
Proof.
  intro s. cbv zeta. pose proof (from_str_panics s) as (H1 & H2). cbv zeta in *. pose proof (proj2 (signing_from_str_iff s)) as H3.
  unfold secret_deserialize, verifying_deserialize, signing_deserialize. cbn [human_readable].
  split; [ | split ]; [ rewrite <- H1; destruct (secret_from_str s) | rewrite <- H2; destruct (verifying_from_str s) | rewrite <- H3; destruct (signing_from_str xof s) ];
    cbn [bind]; split; intro H; congruence.
Qed.

(* sign_prehash *)
Theorem sign_prehash_ok : forall k sk message, keypair k sk -> exists sig pub,
  ed448_sign xof k message = Some sig /\ ed448_derive_public xof k = Some pub /\ length sig = 114%nat /\ length pub = 57%nat /\
  sign_prehash xof sk message = Some (Ok (Signature (sig ++ pub))).
Proof.
  intros k sk message (L & B & H1 & H2 & H3). destruct (sign_total xof XOF k message L B) as (sig & E).
  destruct (sign_canonical xof XOF k message sig L B E) as (LS & _). destruct (derive_some k L B) as (pub & D & LP & _).
  exists sig, pub. split; [ exact E | ]. split; [ exact D | ]. split; [ exact LS | ]. split; [ exact LP | ].
  unfold sign_prehash. unfold to_bytes in H1. rewrite H1, E, bind_Some. cbv beta. unfold as_bytes, get_verifying_key in H3. rewrite D in H3. injection H3 as H3.
  rewrite H3, LS, LP. reflexivity.
Qed.
Theorem sign_prehash_verifies : forall k sk message, keypair k sk -> exists out,
  sign_prehash xof sk message = Some (Ok (Signature out)) /\ length out = 171%nat /\
  (ed448_verify xof (skipn 114 out) (firstn 114 out) message = Some (Ok true) <->
   decodable (skipn 114 out) /\ decodable (firstn 57 out)).
Proof.
  intros k sk message K. destruct (sign_prehash_ok k sk message K) as (sig & pub & E1 & E2 & L1 & L2 & E3).
  exists (sig ++ pub). split; [ exact E3 | ]. split; [ rewrite app_length, L1, L2; reflexivity | ].
  assert (S1 : skipn 114 (sig ++ pub) = pub) by (rewrite skipn_app, L1, Nat.sub_diag, skipn_O, skipn_all2, app_nil_l by lia; reflexivity).
  assert (S2 : firstn 114 (sig ++ pub) = sig) by (rewrite firstn_app, L1, Nat.sub_diag, firstn_O, app_nil_r, firstn_all2 by lia; reflexivity).
  assert (S3 : firstn 57 (sig ++ pub) = firstn 57 sig).
  { rewrite firstn_app, L1. change (57 - 114)%nat with 0%nat. rewrite firstn_O. apply app_nil_r. }
  rewrite S1, S2, S3. destruct K as (L & B & _). apply (honest_verifies xof XOF k); assumption.
Qed.
End Hash.

(* the other two text functions *)
Lemma hex_slice_iff : forall n s b, hex_decode_to_slice s (Z.of_nat n) = Some b <-> spells s b /\ length b = n.
Proof.
  intros n s b. unfold hex_decode_to_slice. destruct (Z.eqb_spec (Z.of_nat (length s)) (2 * Z.of_nat n)) as [E|E].
  - rewrite hex_bytes_iff. split; [ intro H; split; [ exact H | ] | intros (H & _); exact H ]. apply spells_length in H. lia.
  - split; [ discriminate | ]. intros (H & L). apply spells_length in H. lia.
Qed.
Lemma hex_slice_none : forall n s, hex_decode_to_slice s (Z.of_nat n) = None <-> ~ (length s = (2 * n)%nat /\ Forall is_digit s).
Proof.
  intros n s. destruct (hex_decode_to_slice s (Z.of_nat n)) as [k|] eqn:E.
  - apply hex_slice_iff in E. destruct E as (E & L). split; [ discriminate | ]. intro N. exfalso. apply N.
    split; [ apply spells_length in E; lia | apply (spells_digits s k); exact E ].
  - split; [ | reflexivity ]. intros _ (L & D). destruct (spells_ex n s L D) as (b & Hb).
    assert (K : hex_decode_to_slice s (Z.of_nat n) = Some b) by (apply hex_slice_iff; split; [ exact Hb | apply spells_length in Hb; lia ]). congruence.
Qed.
Theorem hex_helpers : forall s,
  (forall b, hex_to_message_hash s = Some b <-> spells s b /\ length b = 32%nat) /\
  (forall b, hex_to_signature s = Some b <-> spells s b /\ length b = 114%nat) /\
  (hex_to_message_hash s = None <-> ~ (length s = 64%nat /\ Forall is_digit s)) /\
  (hex_to_signature s = None <-> ~ (length s = 228%nat /\ Forall is_digit s)).
Proof.
  intro s. split; [ | split; [ | split ] ]; [ intro b; exact (hex_slice_iff 32 s b) | intro b; exact (hex_slice_iff 114 s b) | exact (hex_slice_none 32 s) | exact (hex_slice_none 114 s) ].
Qed.
(* key generation passes the bytes of the generator on *)
Theorem generate : forall xof, is_xof xof -> forall rng, length rng = 57%nat -> bytes rng ->
  ed448_generate_key rng = rng /\ exists sk, signing_random xof rng = Some sk /\ to_bytes sk = rng.
Proof.
  intros xof X rng L B. split; [ reflexivity | ]. destruct (signing_from_slice_ok xof X rng L B) as (sk & K & _ & _ & _ & R & _).
  exists sk. split; [ exact R | ]. apply K.
Qed.
