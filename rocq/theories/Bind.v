(* What an accepted signature pins down; keys without a component in the group generated by B; the
   expanded form of a seed key; signatures that share R. *)
From Coq Require Import ZArith List Bool Lia Znumtheory Ring.
From Verif Require Import SpecField SpecBytes SpecScalar SpecCurve SpecDecode SpecEd448 SpecVerify SpecInternal.
From Verif Require Import Base Bytes Errors Eddsa Goldilocks.
From Verif Require Import Field Edwards Isogeny CombMul BaseTables PrimeQ Decode Ed448 Order Equation Facts Sound Kernel.
Import ListNotations.
Open Scope Z_scope.

Lemma inv4q : (4 * ((q448 + 1) / 4)) mod q448 = 1.
Proof. vm_compute. reflexivity. Qed.
Lemma cancel4 : forall a b, (4 * a) mod q448 = (4 * b) mod q448 -> a mod q448 = b mod q448.
Proof.
  intros a b H. assert (G : forall x, x mod q448 = ((4 * x) mod q448 * ((q448 + 1) / 4)) mod q448).
  { intro x. rewrite Z.mul_mod_idemp_l by discriminate. replace (4 * x * ((q448 + 1) / 4)) with (4 * ((q448 + 1) / 4) * x) by ring.
    rewrite <- Z.mul_mod_idemp_l, inv4q, Z.mul_1_l by discriminate. reflexivity. }
  rewrite (G a), (G b), H. reflexivity.
Qed.
(* a point all of whose multiples by 4 k vanish for one k not divisible by q *)
Lemma four_k : forall A k, on_curve A -> emul (4 * k) A = ezero -> ~ (q448 | k) -> subgroup_part A = ezero.
Proof.
  intros A k C E N. unfold subgroup_part. apply (emul_coprime (emul (q448 + 1) A) q448 k); [ apply emul_on; exact C | | | ].
  - apply prime_rel_prime; [ exact q448_prime | exact N ].
  - rewrite <- emul_mul by exact C. replace (q448 * (q448 + 1)) with ((q448 + 1) / 4 * (4 * q448)).
    + rewrite emul_mul, order_4q by exact C. apply emul_ezero.
    + vm_compute. reflexivity.
  - rewrite <- emul_mul by exact C. replace (k * (q448 + 1)) with ((q448 + 1) / 4 * (4 * k)).
    + rewrite emul_mul, E by exact C. apply emul_ezero.
    + replace (q448 + 1) with (4 * ((q448 + 1) / 4)) at 2 by (vm_compute; reflexivity). ring.
Qed.
Lemma four_sub : forall A k, on_curve A -> subgroup_part A = ezero -> emul (4 * k) A = ezero.
Proof.
  intros A k C E. unfold subgroup_part in E. assert (E4 : emul 4 A = ezero).
  { replace 4 with (4 * (q448 + 1) + -1 * (4 * q448)) by ring. rewrite emul_add, (emul_mul 4 (q448 + 1)), (emul_mul (-1) (4 * q448)), E, order_4q, !emul_ezero by exact C. apply eadd_0_l. }
  rewrite Z.mul_comm, emul_mul, E4 by exact C. apply emul_ezero.
Qed.

Section Hash.
Variable xof : list Z -> nat -> list Z.
Hypothesis XOF : is_xof xof.

Lemma verify_case : forall pub sig message A R, bytes pub -> bytes sig -> denotes pub A -> denotes (firstn 57 sig) R ->
  ed448_verify xof pub sig message = Some (Ok true) ->
  rfc_equation (le_val (firstn 57 (skipn 57 sig))) R (rfc_challenge xof (firstn 57 sig) (eencode (subgroup_part A)) message) A \/
  false_positive xof pub sig message.
Proof.
  intros pub sig message A R B1 B2 N1 N2 V.
  destruct (verify_errors xof XOF pub sig message B1 B2) as (_ & _ & _ & _ & _ & (K & _) & _).
  destruct K as (NZ & _); [ exists true; exact V | ]. exact (verify_true xof XOF pub sig message A R B1 B2 NZ N1 N2 V).
Qed.
(* S modulo q *)
Theorem unique_S : forall pub sig sig' message A R, bytes pub -> bytes sig -> bytes sig' -> denotes pub A -> denotes (firstn 57 sig) R ->
  firstn 57 sig = firstn 57 sig' ->
  ed448_verify xof pub sig message = Some (Ok true) -> ed448_verify xof pub sig' message = Some (Ok true) ->
  le_val (firstn 57 (skipn 57 sig)) mod q448 = le_val (firstn 57 (skipn 57 sig')) mod q448 \/
  false_positive xof pub sig message \/ false_positive xof pub sig' message.
Proof.
  intros pub sig sig' message A R B1 B2 B3 N1 N2 E V V'.
  destruct (verify_case pub sig message A R B1 B2 N1 N2 V) as [Q|Q]; [ | right; left; exact Q ].
  rewrite E in N2. destruct (verify_case pub sig' message A R B1 B3 N1 N2 V') as [Q'|Q']; [ | right; right; exact Q' ].
  left. unfold rfc_equation in Q, Q'. rewrite E in Q. rewrite <- Q in Q'. apply base_inj in Q'. apply cancel4. symmetry. exact Q'.
Qed.
(* the challenge modulo q, hence the message up to a collision of the hash *)
Theorem unique_challenge : forall pub sig m m' A R, bytes pub -> bytes sig -> denotes pub A -> denotes (firstn 57 sig) R ->
  subgroup_part A <> ezero ->
  ed448_verify xof pub sig m = Some (Ok true) -> ed448_verify xof pub sig m' = Some (Ok true) ->
  rfc_challenge xof (firstn 57 sig) (eencode (subgroup_part A)) m mod q448 = rfc_challenge xof (firstn 57 sig) (eencode (subgroup_part A)) m' mod q448 \/
  false_positive xof pub sig m \/ false_positive xof pub sig m'.
Proof.
  intros pub sig m m' A R B1 B2 N1 N2 S V V'.
  destruct (verify_case pub sig m A R B1 B2 N1 N2 V) as [Q|Q]; [ | right; left; exact Q ].
  destruct (verify_case pub sig m' A R B1 B2 N1 N2 V') as [Q'|Q']; [ | right; right; exact Q' ].
  left. unfold rfc_equation in Q, Q'. rewrite Q in Q'. pose proof (proj1 N1) as CA. pose proof (proj1 N2) as CR.
  apply eadd_cancel_l in Q'; try (apply emul_on; assumption).
  set (k := rfc_challenge xof (firstn 57 sig) (eencode (subgroup_part A)) m) in *. set (k' := rfc_challenge xof (firstn 57 sig) (eencode (subgroup_part A)) m') in *. clearbody k k'.
  destruct (Zdivide_dec q448 (k - k')) as [(c & Hc)|N].
  - replace k with (k' + c * q448) by lia. apply Z.mod_add. discriminate.
  - exfalso. apply S. apply (four_k A (k - k') CA); [ | exact N ]. replace (4 * (k - k')) with (4 * k + - (4 * k')) by ring.
    rewrite emul_add, emul_opp, Q' by exact CA. apply eadd_neg. apply emul_on. exact CA.
Qed.
(* a public key without component in the group of B: the equation does not look at the message, and
   signatures are made without any secret *)
Theorem small_key_equation : forall A S R k, on_curve A -> on_curve R -> subgroup_part A = ezero ->
  (rfc_equation S R k A <-> emul (4 * S) ebase = emul 4 R).
Proof. intros A S R k CA CR E. unfold rfc_equation. rewrite (four_sub A k CA E), eadd_0_r. reflexivity. Qed.
Theorem small_key_forgery : forall pub A s, bytes pub -> pub <> repeat 0 57 -> decodable pub -> denotes pub A -> subgroup_part A = ezero ->
  0 <= s < 256 ^ 57 -> decodable (eencode (emul s ebase)) -> forall message,
  ed448_verify xof pub (eencode (emul s ebase) ++ le_bytes 57 s) message = Some (Ok true).
Proof.
  intros pub A s B NZ D N E Rs D2 message. set (R := emul s ebase) in *. assert (CR : on_curve R) by (apply emul_on; exact ebase_on).
  assert (F1 : firstn 57 (eencode R ++ le_bytes 57 s) = eencode R).
  { rewrite firstn_app, eencode_len, Nat.sub_diag, firstn_O, app_nil_r. apply firstn_all2. rewrite eencode_len. apply Nat.le_refl. }
  assert (F2 : skipn 57 (eencode R ++ le_bytes 57 s) = le_bytes 57 s).
  { rewrite skipn_app, eencode_len, Nat.sub_diag. rewrite skipn_all2 by (rewrite eencode_len; apply Nat.le_refl). reflexivity. }
  assert (F3 : le_val (firstn 57 (le_bytes 57 s)) = s).
  { rewrite firstn_all2 by (rewrite le_bytes_length; apply Nat.le_refl). rewrite le_val_le_bytes. apply Z.mod_small. exact Rs. }
  apply (verify_accepts xof XOF pub _ message A R); rewrite ?F1, ?F2; try assumption.
  - apply bytes_app. split; [ apply eencode_bytes | apply le_bytes_bytes ].
  - rewrite app_length, eencode_len, le_bytes_length. apply Nat.le_refl.
  - intros [K|K]; [ exact (NZ K) | ]. apply (f_equal (firstn 57)) in K. rewrite F1 in K. change (firstn 57 (repeat 0 114)) with (repeat 0 57) in K.
    apply (subgroup_not_zero R CR); [ | exact K ]. unfold R. rewrite <- emul_mul by exact ebase_on. rewrite Z.mul_comm, emul_mul, order_ok by exact ebase_on. apply emul_ezero.
  - apply denotes_eencode. exact CR.
  - rewrite F3. apply (small_key_equation A s R _ (proj1 N) CR E). unfold R. apply emul_mul. exact ebase_on.
Qed.
(* the expanded form of a seed key *)
Theorem expanded_form : forall key, length key = 57%nat -> bytes key -> enc_sign key = false -> exists s,
  private_to_secret xof key = Some s /\ length s = 57%nat /\ bytes s /\ enc_sign s = true /\ key_scalar xof s = key_scalar xof key /\
  ed448_derive_public xof s = ed448_derive_public xof key /\
  forall message pub sig, ed448_derive_public xof key = Some pub -> ed448_sign xof s message = Some sig ->
  (ed448_verify xof pub sig message = Some (Ok true) <-> decodable pub /\ decodable (firstn 57 sig)).
Proof.
  intros key L B T. destruct (private_to_secret_ok xof XOF key) as (b & E & Hb).
  destruct (private_to_secret_consistent xof XOF key) as (s & E' & Ls & Bs & Ts & D). rewrite E in E'. apply some_inj in E'. subst s.
  exists (firstn 56 (xof key 114) ++ [b]). split; [ exact E | ]. split; [ exact Ls | ]. split; [ exact Bs | ]. split; [ exact Ts | ].
  assert (K : key_scalar xof (firstn 56 (xof key 114) ++ [b]) = key_scalar xof key).
  { unfold key_scalar. rewrite Ts, T. apply secret_firstn. assert (L6 : length (firstn 56 (xof key 114)) = 56%nat) by (rewrite firstn_length, xof_len by exact XOF; reflexivity).
    rewrite firstn_app, L6, Nat.sub_diag, firstn_O, app_nil_r. apply firstn_all2. rewrite L6. apply Nat.le_refl. }
  split; [ exact K | ].
  assert (P : ed448_derive_public xof (firstn 56 (xof key 114) ++ [b]) = ed448_derive_public xof key).
  { rewrite !(key_public xof XOF) by assumption. rewrite K. reflexivity. }
  split; [ exact P | ]. intros message pub sig E1 E2. rewrite <- P in E1. exact (honest_verifies xof XOF _ message pub sig Ls Bs E1 E2).
Qed.
(* two signatures of one key with the same R *)
Theorem shared_R : forall key pub m m' sig sig', length key = 57%nat -> bytes key -> ed448_derive_public xof key = Some pub ->
  ed448_sign xof key m = Some sig -> ed448_sign xof key m' = Some sig' -> firstn 57 sig = firstn 57 sig' ->
  let k := rfc_challenge xof (firstn 57 sig) pub m in let k' := rfc_challenge xof (firstn 57 sig) pub m' in
  let S := le_val (skipn 57 sig) in let S' := le_val (skipn 57 sig') in
  ((k - k') * key_scalar xof key) mod q448 = (S - S') mod q448 /\
  (k mod q448 <> k' mod q448 -> forall x, 0 <= x < q448 -> ((k - k') * x) mod q448 = (S - S') mod q448 -> x = key_scalar xof key mod q448).
Proof.
  intros key pub m m' sig sig' L B E1 E2 E3 ER k k' S S'.
  assert (G : exists prefix, forall x, ed448_sign xof key x = Some (rfc_sign_with xof (key_scalar xof key) prefix pub x)).
  { rewrite derive_public_ok in E1 by assumption. apply some_inj in E1. rewrite <- E1.
    exists (if enc_sign key then le_bytes 57 (secret_scalar key) else skipn 57 (xof key 114)). intro x. rewrite sign_ok by assumption.
    unfold key_scalar, rfc_sign. cbv zeta. destruct (enc_sign key); reflexivity. }
  destruct G as (prefix & G). rewrite G in E2, E3. apply some_inj in E2. apply some_inj in E3. set (s := key_scalar xof key) in *.
  assert (F1 : forall P n, firstn 57 (eencode P ++ le_bytes 57 n) = eencode P).
  { intros P n. rewrite firstn_app, eencode_len, Nat.sub_diag, firstn_O, app_nil_r. apply firstn_all2. rewrite eencode_len. apply Nat.le_refl. }
  assert (F2 : forall P n, skipn 57 (eencode P ++ le_bytes 57 n) = le_bytes 57 n).
  { intros P n. rewrite skipn_app, eencode_len, Nat.sub_diag. rewrite skipn_all2 by (rewrite eencode_len; apply Nat.le_refl). reflexivity. }
  assert (F3 : forall n, le_val (le_bytes 57 (n mod q448)) = n mod q448).
  { intro n. rewrite le_val_le_bytes. apply Z.mod_small. pose proof (Z.mod_pos_bound n q448 ltac:(reflexivity)) as R. split; [ apply R | ].
    apply Z.lt_trans with q448; [ apply R | reflexivity ]. }
  set (r := le_val (xof (rfc_dom ++ prefix ++ m) 114)). set (r' := le_val (xof (rfc_dom ++ prefix ++ m') 114)).
  assert (ES : S = (r + k * s) mod q448).
  { unfold S, k. rewrite <- E2. unfold rfc_sign_with. cbv zeta. rewrite F1, F2, F3. reflexivity. }
  assert (ES' : S' = (r' + k' * s) mod q448).
  { unfold S', k'. rewrite ER. rewrite <- E3. unfold rfc_sign_with. cbv zeta. rewrite F1, F2, F3. reflexivity. }
  assert (Er : r mod q448 = r' mod q448).
  { apply nonce_inj. rewrite <- E2, <- E3 in ER. unfold rfc_sign_with in ER. cbv zeta in ER. rewrite !F1 in ER. exact ER. }
  assert (Eq : ((k - k') * s) mod q448 = (S - S') mod q448).
  { rewrite ES, ES'. rewrite <- Zminus_mod. replace (r + k * s - (r' + k' * s)) with ((r - r') + (k - k') * s) by ring.
    rewrite Z.add_mod by discriminate. assert (R0 : (r - r') mod q448 = 0) by (rewrite Zminus_mod, Er, Z.sub_diag; reflexivity).
    rewrite R0, Z.add_0_l, Z.mod_mod by discriminate. reflexivity. }
  split; [ exact Eq | ]. intros N x Hx Ex. rewrite <- Eq in Ex. clearbody k k' S S' s. clear - N Hx Ex.
  assert (D : (q448 | (k - k') * (x - s))).
  { apply Z.mod_divide; [ discriminate | ]. replace ((k - k') * (x - s)) with ((k - k') * x - (k - k') * s) by ring. rewrite Zminus_mod, Ex, Z.sub_diag. reflexivity. }
  apply prime_mult in D; [ | exact q448_prime ]. destruct D as [(c & Hc)|(c & Hc)].
  - exfalso. apply N. replace k with (k' + c * q448) by lia. apply Z.mod_add. discriminate.
  - rewrite <- (Z.mod_small x q448 Hx). replace x with (s + c * q448) by lia. apply Z.mod_add. discriminate.
Qed.
End Hash.
