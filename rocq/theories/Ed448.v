(* goldilocks.rs: key derivation and signing against RFC 8032. *)
From Coq Require Import ZArith List Bool Lia.
From Verif Require Import SpecField SpecBytes SpecScalar SpecCurve SpecDecode SpecEd448 Base Arith Bytes Constants32 BigNumber ScalarModel
  Niels Errors ExtendedPoint Eddsa Goldilocks.
From Verif Require Import LimbOps2 Field FieldOps ScalarProofs Edwards Isogeny PointOps PointMul CombMul BaseTables Recode DoubleMul Decode Total.
Import ListNotations.
Open Scope Z_scope.

Lemma q448_nz : q448 <> 0.
Proof. discriminate. Qed.
Lemma base_cong : forall a b, a mod q448 = b mod q448 -> emul a ebase = emul b ebase.
Proof.
  intros a b E. rewrite <- (emul_mod a q448 ebase ebase_on order_ok q448_nz), <- (emul_mod b q448 ebase ebase_on order_ok q448_nz).
  rewrite E. reflexivity.
Qed.
Lemma mul_cong_l : forall c a b, a mod q448 = b mod q448 -> (c * a) mod q448 = (c * b) mod q448.
Proof. intros c a b E. rewrite <- (Zmult_mod_idemp_r a), <- (Zmult_mod_idemp_r b), E. reflexivity. Qed.

(* s -> [s]B through the division by 4 and the encoding *)
Lemma quarter_ok : forall s, red s -> red (halve (halve s)) /\ (4 * v32 (halve (halve s))) mod q448 = v32 s mod q448.
Proof.
  intros s Hs. destruct (halve_red s Hs) as (R1 & V1). destruct (halve_red _ R1) as (R2 & V2). split; [ exact R2 | ].
  rewrite <- V1. replace (4 * v32 (halve (halve s))) with (2 * (2 * v32 (halve (halve s)))) by ring.
  rewrite (mul_cong_l 2 _ _ V2). reflexivity.
Qed.
Lemma base_mul_ok : forall s, red s -> exists p m, precomputed_scalar_mul (halve (halve s)) = Some p /\
  isP p (emul m ebase) /\ (4 * m) mod q448 = v32 s mod q448 /\
  eddsa_like_encode p = Some (eencode (emul (v32 s) ebase)).
Proof.
  intros s Hs. destruct (quarter_ok s Hs) as (R & V).
  destruct (precomputed_scalar_mul_ok _ comb_ok R) as (p & E & H).
  exists p, (meff (v32 (halve (halve s)))). split; [ exact E | ]. split; [ exact H | ].
  assert (C : (4 * meff (v32 (halve (halve s)))) mod q448 = v32 s mod q448).
  { rewrite <- V. apply mul_cong_l. apply meff_cong. }
  split; [ exact C | ]. rewrite (encode_point_ok p _ (proj1 H)). f_equal. f_equal.
  rewrite <- emul_mul by exact ebase_on. apply base_cong. exact C.
Qed.

(* clamping *)
Lemma clamp_byte : forall b, byte b -> Z.land b 0xfc = b - b mod 4 /\ Z.lor b 0x80 = b mod 128 + 128.
Proof.
  assert (K : forallb (fun n => let b := Z.of_nat n in (Z.land b 0xfc =? b - b mod 4) && (Z.lor b 0x80 =? b mod 128 + 128)) (seq 0 256) = true) by reflexivity.
  intros b Hb. unfold byte in Hb. rewrite forallb_forall in K. specialize (K (Z.to_nat b)).
  rewrite in_seq in K. specialize (K ltac:(lia)). cbv zeta in K. rewrite Z2Nat.id in K by lia.
  apply andb_prop in K. destruct K as (K1 & K2). split; apply Z.eqb_eq; assumption.
Qed.
Lemma split_key : forall l, (57 <= length l)%nat -> bytes l -> exists b0 m b55 b56 rest,
  l = b0 :: m ++ b55 :: b56 :: rest /\ length m = 54%nat /\ byte b0 /\ bytes m /\ byte b55 /\ byte b56 /\ bytes rest.
Proof.
  intros l HL HB. destruct l as [|b0 l]; [ cbn [length] in HL; lia | ]. inversion HB as [|? ? B0 B1]; subst.
  rewrite <- (firstn_skipn 54 l) in B1. apply Forall_app in B1. destruct B1 as (B1 & B2).
  exists b0, (firstn 54 l). cbn [length] in HL.
  assert (LS : (length (skipn 54 l) >= 2)%nat) by (rewrite skipn_length; lia).
  destruct (skipn 54 l) as [|b55 [|b56 rest]] eqn:ES; cbn [length] in LS; try lia.
  inversion B2 as [|? ? B3 B4]; subst. inversion B4; subst.
  exists b55, b56, rest. split; [ rewrite <- ES, firstn_skipn; reflexivity | ].
  split; [ rewrite firstn_length; lia | ]. auto.
Qed.
Lemma pow_256_54 : 256 * 256 ^ 54 * 128 = 2 ^ 447.
Proof. reflexivity. Qed.
Lemma key_val : forall b0 m b55 b56 rest, length m = 54%nat -> byte b0 -> bytes m -> byte b55 ->
  secret_scalar (b0 :: m ++ b55 :: b56 :: rest) = b0 - b0 mod 4 + 256 * (le_val m + 256 ^ 54 * (b55 mod 128 + 128)).
Proof.
  intros b0 m b55 b56 rest Lm B0 Bm B55. unfold secret_scalar.
  assert (E : firstn 56 (b0 :: m ++ b55 :: b56 :: rest) = b0 :: m ++ [b55]).
  { change 56%nat with (S 55). rewrite firstn_cons. f_equal. rewrite firstn_app, Lm. change (55 - 54)%nat with 1%nat.
    rewrite firstn_all2 by lia. reflexivity. }
  rewrite E. cbn [le_val]. rewrite le_val_app, Lm. cbn [le_val]. pose proof (le_val_range m Bm) as R. rewrite Lm in R.
  change (Z.of_nat 54) with 54 in *. unfold byte in *.
  pose proof (Z.div_mod b55 128 ltac:(lia)) as D1. pose proof (Z.mod_pos_bound b55 128 ltac:(lia)) as D2.
  pose proof (Z.div_mod b0 4 ltac:(lia)) as D3. pose proof (Z.mod_pos_bound b0 4 ltac:(lia)) as D4.
  pose proof (Z.div_pos b0 4 ltac:(lia) ltac:(lia)) as D5.
  set (M := le_val m) in *. set (t := b55 mod 128) in *. set (u := b55 / 128) in *. set (w := b0 / 4) in *. set (x := b0 mod 4) in *.
  assert (E2 : (b0 + 256 * (M + 256 ^ 54 * (b55 + 256 * 0))) mod 2 ^ 447 = b0 + 256 * (M + 256 ^ 54 * t)).
  { rewrite D1. replace (b0 + 256 * (M + 256 ^ 54 * (128 * u + t + 256 * 0))) with (b0 + 256 * (M + 256 ^ 54 * t) + u * (256 * 256 ^ 54 * 128)) by ring.
    rewrite pow_256_54, Z.mod_add by lia. apply Z.mod_small. rewrite <- pow_256_54. clear - B0 R D2. nia. }
  rewrite E2, D3. replace (4 * w + x + 256 * (M + 256 ^ 54 * t)) with (x + (w + 64 * (M + 256 ^ 54 * t)) * 4) by ring.
  rewrite Z.div_add by lia. rewrite (Z.div_small x 4) by lia. rewrite <- pow_256_54. ring.
Qed.
Lemma clamp_ok : forall l, (57 <= length l)%nat -> bytes l ->
  clamp l = Some (le_bytes 57 (secret_scalar l) ++ skipn 57 l).
Proof.
  intros l HL HB. destruct (split_key l HL HB) as (b0 & m & b55 & b56 & rest & -> & Lm & B0 & Bm & B55 & B56 & Br).
  rewrite key_val by assumption.
  destruct (clamp_byte b0 B0) as (C1 & _). destruct (clamp_byte b55 B55) as (_ & C2).
  unfold clamp. change (znth (b0 :: m ++ b55 :: b56 :: rest) 0) with (Some b0). rewrite bind_Some. cbv beta.
  change (zupd (b0 :: m ++ b55 :: b56 :: rest) 0 (Z.land b0 252)) with (Some (Z.land b0 252 :: m ++ b55 :: b56 :: rest)). rewrite bind_Some. cbv beta. cbn [app].
  set (c0 := Z.land b0 252) in *.
  assert (P1 : forall x y z, c0 :: m ++ x :: y :: z = (c0 :: m ++ [x]) ++ y :: z) by (intros; cbn [app]; rewrite <- app_assoc; reflexivity).
  rewrite P1. replace 56 with (Z.of_nat (length (c0 :: m ++ [b55]))) at 1 by (cbn [length]; rewrite app_length, Lm; reflexivity).
  rewrite zupd_app, bind_Some. cbv beta. rewrite <- P1.
  assert (P2 : forall x z, c0 :: m ++ x :: z = (c0 :: m) ++ x :: z) by reflexivity. rewrite P2.
  replace 55 with (Z.of_nat (length (c0 :: m))) by (cbn [length]; rewrite Lm; reflexivity).
  rewrite znth_app_r, bind_Some. cbv beta. rewrite zupd_app. f_equal.
  assert (E57 : skipn 57 (b0 :: m ++ b55 :: b56 :: rest) = rest).
  { change 57%nat with (S 56). rewrite skipn_cons, skipn_app, Lm. rewrite skipn_all2 by lia. reflexivity. }
  rewrite E57. cbn [app].
  assert (EV : b0 - b0 mod 4 + 256 * (le_val m + 256 ^ 54 * (b55 mod 128 + 128)) = le_val (c0 :: m ++ [b55 mod 128 + 128; 0])).
  { cbn [le_val]. rewrite le_val_app, Lm. cbn [le_val]. rewrite C1. change (Z.of_nat 54) with 54. ring. }
  rewrite EV. rewrite C2.
  replace (c0 :: m ++ b55 mod 128 + 128 :: 0 :: rest) with ((c0 :: m ++ [b55 mod 128 + 128; 0]) ++ rest)
    by (cbn [app]; rewrite <- app_assoc; reflexivity).
  f_equal. symmetry.
  assert (LL : length (c0 :: m ++ [b55 mod 128 + 128; 0]) = 57%nat) by (cbn [length]; rewrite app_length, Lm; reflexivity).
  rewrite <- LL. apply le_bytes_le_val. unfold byte in *.
  constructor; [ rewrite C1; pose proof (Z.mod_pos_bound b0 4 ltac:(lia)); pose proof (Z.mod_le b0 4 ltac:(lia) ltac:(lia)); unfold byte; lia | ].
  apply Forall_app. split; [ exact Bm | ]. pose proof (Z.mod_pos_bound b55 128 ltac:(lia)).
  repeat constructor; unfold byte; lia.
Qed.
Lemma secret_range : forall l, bytes l -> 2 ^ 447 <= secret_scalar l < 2 ^ 448.
Proof.
  intros l HB. unfold secret_scalar. pose proof (Z.mod_pos_bound (le_val (firstn 56 l)) (2 ^ 447) ltac:(lia)) as R.
  set (v := le_val (firstn 56 l) mod 2 ^ 447) in *. pose proof (Z.div_mod v 4 ltac:(lia)). pose proof (Z.mod_pos_bound v 4 ltac:(lia)).
  change (2 ^ 448) with (2 * 2 ^ 447). lia.
Qed.
Lemma secret_le : forall l, bytes l -> le_val (le_bytes 57 (secret_scalar l)) = secret_scalar l.
Proof.
  intros l HB. rewrite le_val_le_bytes. apply Z.mod_small. pose proof (secret_range l HB).
  change (256 ^ Z.of_nat 57) with (2 ^ 456). lia.
Qed.
Lemma firstn_le_bytes : forall n k z, firstn n (le_bytes (n + k) z) = le_bytes n z.
Proof. induction n as [|n IH]; intros k z; [ reflexivity | ]. cbn [Nat.add le_bytes firstn]. f_equal. apply IH. Qed.
(* clamping again changes nothing *)
Lemma secret_again : forall l t, bytes l -> secret_scalar (le_bytes 57 (secret_scalar l) ++ t) = secret_scalar l.
Proof.
  intros l t HB. unfold secret_scalar at 1.
  assert (E : firstn 56 (le_bytes 57 (secret_scalar l) ++ t) = le_bytes 56 (secret_scalar l)).
  { rewrite firstn_app, le_bytes_length. change (56 - 57)%nat with 0%nat. rewrite firstn_O, app_nil_r.
    apply (firstn_le_bytes 56 1). }
  rewrite E, le_val_le_bytes. change (256 ^ Z.of_nat 56) with (2 ^ 448).
  rewrite (Z.mod_small _ (2 ^ 448)) by (pose proof (secret_range l HB); lia).
  unfold secret_scalar. set (v := le_val (firstn 56 l) mod 2 ^ 447).
  assert (R : 0 <= 4 * (v / 4) < 2 ^ 447).
  { pose proof (Z.mod_pos_bound (le_val (firstn 56 l)) (2 ^ 447) ltac:(lia)) as R. fold v in R.
    pose proof (Z.div_mod v 4 ltac:(lia)). pose proof (Z.mod_pos_bound v 4 ltac:(lia)). pose proof (Z.div_pos v 4 ltac:(lia) ltac:(lia)). lia. }
  replace (2 ^ 447 + 4 * (v / 4)) with (4 * (v / 4) + 1 * 2 ^ 447) at 1 by ring.
  rewrite Z.mod_add by lia. rewrite (Z.mod_small _ _ R). rewrite (Z.mul_comm 4 (v / 4)), Z.div_mul by lia. ring.
Qed.

(* public point of a secret *)
Lemma decode_key : forall l, (57 <= length l)%nat -> bytes l -> exists r, decode_long (le_bytes 57 (secret_scalar l)) = Some r /\
  red r /\ v32 r = secret_scalar l mod q448.
Proof.
  intros l HL HB. destruct (decode_long_ok (le_bytes 57 (secret_scalar l)) (le_bytes_bytes _ _)) as (r & E & R & V).
  { rewrite le_bytes_length. reflexivity. }
  exists r. split; [ exact E | ]. split; [ exact R | ]. rewrite V, secret_le by exact HB. reflexivity.
Qed.
Lemma point_by_secret_ok : forall l, length l = 57%nat -> bytes l -> exists p m,
  point_by_secret l = Some p /\ isP p (emul m ebase) /\ (4 * m) mod q448 = secret_scalar l mod q448 /\
  eddsa_like_encode p = Some (eencode (emul (secret_scalar l) ebase)).
Proof.
  intros l HL HB. unfold point_by_secret. rewrite clamp_ok by (assumption || lia).
  rewrite skipn_all2 by lia. rewrite app_nil_r, bind_Some. cbv beta.
  destruct (decode_key l ltac:(lia) HB) as (r & E & R & V). rewrite E, bind_Some. cbv beta zeta.
  destruct (base_mul_ok r R) as (p & m & E1 & H1 & C1 & N1). exists p, m. split; [ exact E1 | ]. split; [ exact H1 | ].
  rewrite V, Z.mod_mod in C1 by exact q448_nz. split; [ exact C1 | ]. rewrite N1. f_equal. f_equal. apply base_cong.
  rewrite V. apply Z.mod_mod. exact q448_nz.
Qed.
Lemma secret_to_public_ok : forall l, length l = 57%nat -> bytes l ->
  secret_to_public l = Some (eencode (emul (secret_scalar l) ebase)).
Proof.
  intros l HL HB. unfold secret_to_public. destruct (point_by_secret_ok l HL HB) as (p & m & E & _ & _ & N).
  rewrite E, bind_Some. exact N.
Qed.

Section Hash.
Variable xof : list Z -> nat -> list Z.
Hypothesis XOF : is_xof xof.

Lemma xof_len : forall x n, length (xof x n) = n.
Proof. intros x n. apply XOF. Qed.
Lemma xof_bytes : forall x n, bytes (xof x n).
Proof. intros x n. apply (proj1 (XOF x)). Qed.
Lemma xof_56 : forall x, firstn 56 (xof x 57) = firstn 56 (xof x 114).
Proof. intro x. rewrite (proj2 (XOF x) 57%nat 114%nat) by lia. rewrite firstn_firstn. reflexivity. Qed.

(* setting the top bit of the last byte does not change the scalar *)
Lemma secret_firstn : forall a b, firstn 56 a = firstn 56 b -> secret_scalar a = secret_scalar b.
Proof. intros a b E. unfold secret_scalar. rewrite E. reflexivity. Qed.
Lemma private_to_secret_ok : forall k, exists b, private_to_secret xof k = Some (firstn 56 (xof k 114) ++ [b]) /\ 128 <= b < 256.
Proof.
  intro k. unfold private_to_secret, sha3. cbv zeta.
  destruct (split57 (xof k 57) (xof_len k 57) (xof_bytes k 57)) as (l & b & E & Hl & Bl & Bb).
  assert (E1 : firstn 56 (xof k 114) = l).
  { rewrite <- xof_56, E, firstn_app, Hl, Nat.sub_diag, firstn_O, app_nil_r. apply firstn_all2. lia. }
  rewrite E, E1. change 56 with (Z.of_nat 56). rewrite <- Hl. rewrite znth_app_r, bind_Some. cbv beta. rewrite zupd_app.
  exists (Z.lor b 128). split; [ reflexivity | ]. rewrite (proj2 (clamp_byte b Bb)).
  pose proof (Z.mod_pos_bound b 128 ltac:(lia)). lia.
Qed.
Lemma private_to_public_ok : forall k, private_to_public xof k = Some (rfc_public xof k).
Proof.
  intro k. unfold private_to_public. destruct (private_to_secret_ok k) as (b & E & Hb). rewrite E, bind_Some. cbv beta.
  assert (L : length (firstn 56 (xof k 114)) = 56%nat) by (rewrite firstn_length, xof_len; reflexivity).
  rewrite secret_to_public_ok.
  - unfold rfc_public. f_equal. f_equal. f_equal. apply secret_firstn.
    rewrite firstn_app, L, Nat.sub_diag, firstn_O, app_nil_r. apply firstn_all2. lia.
  - rewrite app_length, L. reflexivity.
  - apply Forall_app. split; [ apply bytes_firstn; apply xof_bytes | ]. repeat constructor; unfold byte; lia.
Qed.

(* the common part of both signing functions *)
Lemma sign_tail_ok : forall sec seed pt message sv A, red sec -> v32 sec = sv mod q448 ->
  eddsa_like_encode pt = Some A ->
  sign_tail xof sec seed pt message = Some (rfc_sign_with xof sv seed A message).
Proof.
  intros sec seed pt message sv A Rs Vs HA. unfold sign_tail, rfc_sign_with. cbv zeta.
  unfold hash_with_dom. change DOM with rfc_dom.
  set (nonce := xof (rfc_dom ++ seed ++ message) 114).
  assert (Bn : bytes nonce) by apply xof_bytes. assert (Ln : length nonce = 114%nat) by apply xof_len.
  destruct (decode_long_ok nonce Bn) as (r & Er & Rr & Vr); [ rewrite Ln; reflexivity | ].
  rewrite Er, bind_Some. cbv beta. destruct (base_mul_ok r Rr) as (np & m & E1 & _ & _ & N1).
  rewrite E1, bind_Some. cbv beta. rewrite N1, bind_Some. cbv beta. rewrite HA, bind_Some. cbv beta.
  assert (EB : emul (v32 r) ebase = emul (le_val nonce) ebase).
  { apply base_cong. rewrite Vr. apply Z.mod_mod. exact q448_nz. }
  rewrite EB. set (R := eencode (emul (le_val nonce) ebase)).
  set (ch := xof (rfc_dom ++ R ++ A ++ message) 114).
  assert (Bc : bytes ch) by apply xof_bytes. assert (Lc : length ch = 114%nat) by apply xof_len.
  destruct (decode_long_ok ch Bc) as (c & Ec & Rc & Vc); [ rewrite Lc; reflexivity | ].
  rewrite Ec, bind_Some. cbv beta.
  destruct (smul_ok c sec (proj1 Rc) Rs) as (u & Eu & Ru & Vu). rewrite Eu, bind_Some. cbv beta.
  destruct (sadd_ok u r Ru Rr) as (w & Ew & Rw & Vw). rewrite Ew, bind_Some. cbv beta.
  rewrite (encode_ok w (proj1 Rw)). f_equal. f_equal. f_equal.
  rewrite Vw, Vu, Vc, Vr, Vs.
  rewrite <- Zplus_mod. rewrite Z.add_comm. rewrite <- Zplus_mod_idemp_r.
  rewrite <- Zmult_mod. rewrite Zplus_mod_idemp_r. reflexivity.
Qed.

Lemma slice_app_l : forall a b n, length a = n -> slice (a ++ b) 0 n = Some a.
Proof.
  intros a b n L. unfold slice. rewrite app_length, L. change (Nat.leb 0 n) with true.
  destruct (Nat.leb_spec n (n + length b)); [ | lia ]. cbn [andb skipn]. rewrite Nat.sub_0_r, firstn_app, L, Nat.sub_diag, firstn_O, app_nil_r.
  rewrite firstn_all2 by lia. reflexivity.
Qed.
Lemma slice_app_r : forall a b n k, length a = n -> (k = n + length b)%nat -> slice (a ++ b) n k = Some b.
Proof.
  intros a b n k L K. unfold slice. rewrite app_length, L, <- K.
  destruct (Nat.leb_spec n k); [ | lia ]. destruct (Nat.leb_spec k k); [ | lia ]. cbn [andb].
  rewrite skipn_app, L, Nat.sub_diag, skipn_O, skipn_all2, app_nil_l by lia. rewrite firstn_all2 by lia. reflexivity.
Qed.
Lemma sign_by_private_ok : forall k message, sign_by_private xof k message = Some (rfc_sign xof k message).
Proof.
  intros k message. unfold sign_by_private, rfc_sign, sha3. cbv zeta. set (h := xof k 114).
  assert (B : bytes h) by apply xof_bytes. assert (L : length h = 114%nat) by apply xof_len.
  rewrite clamp_ok by (assumption || lia). rewrite bind_Some. cbv beta.
  rewrite slice_app_l by apply le_bytes_length. rewrite bind_Some. cbv beta.
  destruct (decode_key h ltac:(lia) B) as (sec & Es & Rs & Vs). rewrite Es, bind_Some. cbv beta.
  rewrite slice_app_r; [ | apply le_bytes_length | rewrite skipn_length, L; reflexivity ]. rewrite bind_Some. cbv beta.
  destruct (point_by_secret_ok (le_bytes 57 (secret_scalar h)) (le_bytes_length _ _) (le_bytes_bytes _ _)) as (p & m & E & _ & _ & N).
  rewrite E, bind_Some. cbv beta.
  rewrite <- (app_nil_r (le_bytes 57 (secret_scalar h))) in N at 1. rewrite secret_again in N by exact B.
  apply sign_tail_ok; assumption.
Qed.
Lemma sign_secret_ok : forall k n message, length k = 57%nat -> bytes k ->
  sign_with_secret_and_nonce xof k n message =
  Some (rfc_sign_with xof (secret_scalar k) n (eencode (emul (secret_scalar k) ebase)) message).
Proof.
  intros k n message L B. unfold sign_with_secret_and_nonce. rewrite clamp_ok by (assumption || lia).
  rewrite skipn_all2, app_nil_r by lia. rewrite bind_Some. cbv beta.
  destruct (decode_key k ltac:(lia) B) as (sec & Es & Rs & Vs). rewrite Es, bind_Some. cbv beta.
  destruct (point_by_secret_ok k L B) as (p & m & E & _ & _ & N).
  rewrite E, bind_Some. cbv beta. apply sign_tail_ok; assumption.
Qed.

(* the public functions *)
Lemma top_bit : forall k, length k = 57%nat -> bytes k -> exists b, znth k (57 - 1) = Some b /\ (Z.land b 0x80 =? 0) = negb (enc_sign k).
Proof.
  intros k L B. destruct (split57 k L B) as (l & b & -> & Ll & Bl & Bb).
  exists b. change (57 - 1)%Z with (Z.of_nat 56). rewrite <- Ll. split; [ apply znth_app_r | ].
  rewrite (proj1 (proj2 (enc_fields l b Ll))). rewrite Z.land_comm, (proj2 (byte_bits b Bb)).
  destruct (128 <=? b); reflexivity.
Qed.
Theorem derive_public_ok : forall k, length k = 57%nat -> bytes k ->
  ed448_derive_public xof k = Some (if enc_sign k then eencode (emul (secret_scalar k) ebase) else rfc_public xof k).
Proof.
  intros k L B. unfold ed448_derive_public. destruct (top_bit k L B) as (b & E & T). rewrite E, bind_Some. cbv beta. rewrite T.
  destruct (enc_sign k); cbn [negb]; [ apply secret_to_public_ok; assumption | apply private_to_public_ok ].
Qed.
Theorem sign_ok : forall k message, length k = 57%nat -> bytes k ->
  ed448_sign xof k message = Some (if enc_sign k
    then rfc_sign_with xof (secret_scalar k) (le_bytes 57 (secret_scalar k)) (eencode (emul (secret_scalar k) ebase)) message
    else rfc_sign xof k message).
Proof.
  intros k message L B. unfold ed448_sign. destruct (top_bit k L B) as (b & E & T). rewrite E, bind_Some. cbv beta. rewrite T.
  destruct (enc_sign k); cbn [negb]; [ | apply sign_by_private_ok ].
  rewrite clamp_ok by (assumption || lia). rewrite skipn_all2, app_nil_r by lia. rewrite bind_Some. cbv beta.
  rewrite sign_secret_ok by (apply le_bytes_length || apply le_bytes_bytes).
  rewrite <- (app_nil_r (le_bytes 57 (secret_scalar k))) at 1 3. rewrite secret_again by exact B. reflexivity.
Qed.
End Hash.
