(* What the prefix of the nonces gives away: with it, one signature gives the scalar; two keys with one
   prefix, and one message signed by both, give each scalar from the other. *)
From Coq Require Import ZArith List Bool Lia Znumtheory Ring.
From Verif Require Import SpecField SpecBytes SpecScalar SpecCurve SpecDecode SpecEd448 SpecVerify SpecInternal.
From Verif Require Import Base Bytes Errors Eddsa Goldilocks.
From Verif Require Import Field Edwards Isogeny CombMul BaseTables PrimeQ Decode Ed448 Order Equation Facts Sound Kernel Bind Blocks Samples Samples2.
Import ListNotations.
Open Scope Z_scope.

(* k x = v modulo q has at most one solution if q does not divide k *)
Lemma solve_one : forall k s x v, k mod q448 <> 0 -> (k * s) mod q448 = v mod q448 -> 0 <= x < q448 -> (k * x) mod q448 = v mod q448 -> x = s mod q448.
Proof.
  intros k s x v N E Hx Ex. rewrite <- E in Ex.
  assert (D : (q448 | k * (x - s))).
  { apply Z.mod_divide; [ discriminate | ]. replace (k * (x - s)) with (k * x - k * s) by ring. rewrite Zminus_mod, Ex, Z.sub_diag. reflexivity. }
  apply prime_mult in D; [ | exact q448_prime ]. destruct D as [D|(c & Hc)].
  - exfalso. apply N. apply Z.mod_divide; [ discriminate | exact D ].
  - rewrite <- (Z.mod_small x q448 Hx). replace x with (s + c * q448) by lia. apply Z.mod_add. discriminate.
Qed.
Lemma first_half : forall P n, firstn 57 (eencode P ++ le_bytes 57 n) = eencode P.
Proof. intros P n. rewrite firstn_app, eencode_len, Nat.sub_diag, firstn_O, app_nil_r. apply firstn_all2. rewrite eencode_len. apply Nat.le_refl. Qed.
Lemma second_half : forall P n, le_val (skipn 57 (eencode P ++ le_bytes 57 (n mod q448))) = n mod q448.
Proof.
  intros P n. rewrite skipn_app, eencode_len, Nat.sub_diag. rewrite skipn_all2 by (rewrite eencode_len; apply Nat.le_refl). rewrite app_nil_l, skipn_O.
  rewrite le_val_le_bytes. apply Z.mod_small. pose proof (Z.mod_pos_bound n q448 ltac:(reflexivity)) as R. split; [ apply R | ].
  apply Z.lt_trans with q448; [ apply R | reflexivity ].
Qed.
Section Hash.
Variable xof : list Z -> nat -> list Z.
Hypothesis XOF : is_xof xof.
Notation nonce prefix m := (le_val (xof (rfc_dom ++ prefix ++ m) 114%nat)).

Lemma with_prefix : forall s prefix pub m, let sig := rfc_sign_with xof s prefix pub m in
  firstn 57 sig = eencode (emul (nonce prefix m) ebase) /\
  le_val (skipn 57 sig) = (nonce prefix m + rfc_challenge xof (firstn 57 sig) pub m * s) mod q448.
Proof. intros s prefix pub m. unfold rfc_sign_with. cbv zeta. rewrite first_half, second_half. split; reflexivity. Qed.
Lemma reveals : forall s prefix pub m, let sig := rfc_sign_with xof s prefix pub m in let k := rfc_challenge xof (firstn 57 sig) pub m in
  let v := le_val (skipn 57 sig) - nonce prefix m in
  (k * s) mod q448 = v mod q448 /\ (k mod q448 <> 0 -> forall x, 0 <= x < q448 -> (k * x) mod q448 = v mod q448 -> x = s mod q448).
Proof.
  intros s prefix pub m sig k v. destruct (with_prefix s prefix pub m) as (_ & ES). fold sig in ES. fold k in ES.
  assert (E : (k * s) mod q448 = v mod q448).
  { unfold v. rewrite ES, Zminus_mod_idemp_l. f_equal. ring. }
  split; [ exact E | ]. intros N x Hx Ex. exact (solve_one k s x v N E Hx Ex).
Qed.
Theorem known_prefix : forall key prefix pub m sig, length key = 57%nat -> bytes key -> secret_to_public key = Some pub ->
  sign_with_secret_and_nonce xof key prefix m = Some sig ->
  let k := rfc_challenge xof (firstn 57 sig) pub m in let v := le_val (skipn 57 sig) - nonce prefix m in
  (k * secret_scalar key) mod q448 = v mod q448 /\
  (k mod q448 <> 0 -> forall x, 0 <= x < q448 -> (k * x) mod q448 = v mod q448 -> x = secret_scalar key mod q448).
Proof.
  intros key prefix pub m sig L B E1 E2. destruct (blocks xof XOF key m) as (_ & _ & G). destruct (G L B) as (G1 & G2). clear G.
  rewrite G1 in E1. rewrite G2 in E2. apply some_inj in E1. apply some_inj in E2. rewrite E1 in E2. rewrite <- E2. apply reveals.
Qed.
(* the two kinds of keys of ed448_sign *)
Theorem known_prefix_key : forall key pub m sig, length key = 57%nat -> bytes key -> ed448_derive_public xof key = Some pub ->
  ed448_sign xof key m = Some sig ->
  let prefix := if enc_sign key then le_bytes 57 (secret_scalar key) else skipn 57 (xof key 114%nat) in
  let k := rfc_challenge xof (firstn 57 sig) pub m in let v := le_val (skipn 57 sig) - nonce prefix m in
  (k * key_scalar xof key) mod q448 = v mod q448 /\
  (k mod q448 <> 0 -> forall x, 0 <= x < q448 -> (k * x) mod q448 = v mod q448 -> x = key_scalar xof key mod q448).
Proof.
  intros key pub m sig L B E1 E2 prefix. rewrite derive_public_ok in E1 by assumption. apply some_inj in E1. rewrite sign_ok in E2 by assumption. apply some_inj in E2.
  assert (E : sig = rfc_sign_with xof (key_scalar xof key) prefix pub m).
  { rewrite <- E1, <- E2. unfold prefix, key_scalar, rfc_sign. cbv zeta. destruct (enc_sign key); reflexivity. }
  rewrite E. apply reveals.
Qed.
Theorem shared_prefix : forall key key' prefix pub pub' m sig sig', length key = 57%nat -> bytes key -> length key' = 57%nat -> bytes key' ->
  secret_to_public key = Some pub -> secret_to_public key' = Some pub' ->
  sign_with_secret_and_nonce xof key prefix m = Some sig -> sign_with_secret_and_nonce xof key' prefix m = Some sig' ->
  firstn 57 sig = firstn 57 sig' /\
  let k := rfc_challenge xof (firstn 57 sig) pub m in let k' := rfc_challenge xof (firstn 57 sig') pub' m in
  let v := le_val (skipn 57 sig) - le_val (skipn 57 sig') + k' * secret_scalar key' in
  (k * secret_scalar key) mod q448 = v mod q448 /\
  (k mod q448 <> 0 -> forall x, 0 <= x < q448 -> (k * x) mod q448 = v mod q448 -> x = secret_scalar key mod q448).
Proof.
  intros key key' prefix pub pub' m sig sig' L B L' B' E1 E1' E2 E2'.
  destruct (blocks xof XOF key m) as (_ & _ & G). destruct (G L B) as (G1 & G2). clear G.
  destruct (blocks xof XOF key' m) as (_ & _ & G). destruct (G L' B') as (G1' & G2'). clear G.
  rewrite G1 in E1. rewrite G2 in E2. apply some_inj in E1. apply some_inj in E2. rewrite E1 in E2.
  rewrite G1' in E1'. rewrite G2' in E2'. apply some_inj in E1'. apply some_inj in E2'. rewrite E1' in E2'.
  destruct (with_prefix (secret_scalar key) prefix pub m) as (R & S). rewrite E2 in R, S.
  destruct (with_prefix (secret_scalar key') prefix pub' m) as (R' & S'). rewrite E2' in R', S'.
  split; [ rewrite R, R'; reflexivity | ]. intros k k' v. fold k in S. fold k' in S'.
  assert (E : (k * secret_scalar key) mod q448 = v mod q448).
  { unfold v. rewrite S, S'. set (s := secret_scalar key). set (s' := secret_scalar key'). set (n := nonce prefix m).
    rewrite <- Z.add_mod_idemp_l, <- Zminus_mod, Z.add_mod_idemp_l by discriminate. f_equal. ring. }
  split; [ exact E | ]. intros N x Hx Ex. exact (solve_one k _ x v N E Hx Ex).
Qed.
End Hash.
(* two keys, one prefix, and a challenge that q does not divide *)
Lemma challenge1 : forall R A m, rfc_challenge xof1 R A m mod q448 <> 0.
Proof. intros R A m E. unfold rfc_challenge, xof1 in E. vm_compute in E. discriminate E. Qed.
Lemma prefix_case : forall prefix m, is_xof xof1 /\ key4 <> seed /\ length key4 = 57%nat /\ bytes key4 /\ length seed = 57%nat /\ bytes seed /\
  exists pub pub' sig sig', secret_to_public key4 = Some pub /\ secret_to_public seed = Some pub' /\
  sign_with_secret_and_nonce xof1 key4 prefix m = Some sig /\ sign_with_secret_and_nonce xof1 seed prefix m = Some sig' /\
  rfc_challenge xof1 (firstn 57 sig) pub m mod q448 <> 0.
Proof.
  intros prefix m. destruct key4_ok as (L & B & S & _). destruct seed_ok as (L' & B' & S').
  split; [ exact xof1_xof | ]. split; [ intro E; rewrite E, S' in S; discriminate S | ]. split; [ exact L | ]. split; [ exact B | ]. split; [ exact L' | ]. split; [ exact B' | ].
  destruct (blocks xof1 xof1_xof key4 m) as (_ & _ & G). destruct (G L B) as (G1 & G2). clear G.
  destruct (blocks xof1 xof1_xof seed m) as (_ & _ & G). destruct (G L' B') as (G1' & G2'). clear G.
  eexists. eexists. eexists. eexists. split; [ exact G1 | ]. split; [ exact G1' | ]. split; [ apply G2 | ]. split; [ apply G2' | ]. apply challenge1.
Qed.
