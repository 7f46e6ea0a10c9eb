(* Answers of the signer and of the hash against answers made from the public key. *)
From Coq Require Import ZArith List Bool Lia.
From Verif Require Import Base SpecField SpecBytes SpecScalar SpecCurve SpecDecode SpecEd448 SpecVerify SpecInternal SpecUniform SpecProtocol SpecQueries SpecForger.
From Verif Require Import Bytes Errors Eddsa Goldilocks Game Seen.
From Verif Require Import Field Edwards Isogeny CombMul BaseTables PrimeQ Decode Verify Ed448 Order Equation Facts Sound Kernel Uniform Count Bind Alias Api Protocol Structure SmallKeys Queries Transcripts Unbias Forking Forger GameFork GameHop GameReal GameCase Complete GameExpanded Advantage.
Import ListNotations.
Open Scope Z_scope.
Local Opaque strings q448 below eencode emul.

Definition idle (_ : list (list Z)) : list Z * list Z := ([], []).
Local Notation pk s := (eencode (emul s ebase)).
Local Notation both := (list_prod (strings 114) (strings 114)).
Local Notation half := (list_prod (strings 114) (below q448)).

Section Seeds.
Variable n : nat.
Variable next : list Z -> list (list Z) -> query.
Variable W : sight -> bool.
Definition own_judged (s : Z) (coins : list (list Z * list Z)) : bool := W (pk s, answers (own_end n (next (pk s)) s coins)).
Lemma sight_is : forall key d coins, length key = 57%nat -> bytes key -> enc_sign key = false -> In d (strings 114) -> In coins (vectors both (S n)) -> let s := secret_scalar d in
  (forall x, In x (map fst (known (own_end n (next (pk s)) s coins))) -> public key d x) ->
  real_sight n next key d coins = Some (pk s, answers (own_end n (next (pk s)) s coins)).
Proof.
  intros key d coins KL KB KS DI CI s P.
  assert (EK : recall key [(key, d)] = Some d) by apply recall_this.
  assert (X0 : is_xof (table_xof [(key, d)])) by (apply table_bytes; intros x a [ E | [] ]; injection E as <- <-; exact DI).
  unfold real_sight. rewrite (derive_public_ok _ X0 key KL KB), KS. unfold rfc_public. rewrite (table_key key d DI _ EK). fold s.
  assert (CC : forall c, In c coins -> In (fst c) (strings 114) /\ In (snd c) (strings 114)).
  { intros (c, r) I. apply (vectors_in _ _ coins _ CI) in I. apply in_prod_iff in I. exact I. }
  assert (REL : related key d (fold_left (real_step (next (pk s)) key) (firstn n coins) (real_start key d)) (fold_left (own_step (secret_scalar d) (next (pk s))) (firstn n coins) (View [] [] []))).
  { apply (fold_related key d (next (pk s)) KL KB KS DI).
    + unfold related, real_start. cbn [answers signed]. split; [ reflexivity | ]. split; [ reflexivity | ].
      change (known (View [[(key, d)]] [] [])) with [(key, d)]. change (known (View [] [] [])) with (@nil (list Z * list Z)).
      split; [ | split; [ | split; [ | split ] ] ].
      * intros x (NX & _). rewrite (recall_one _ _ _ NX). reflexivity.
      * exact EK.
      * intros m _. apply recall_one. apply (nonce_key key d KL DI).
      * intros x a [ E | [] ]. injection E as <- <-. exact DI.
      * intros x a [].
    + intros c I. apply CC. exact (firstn_in _ _ _ _ I).
    + intros x a I. apply P. apply (in_map fst _ (x, a)). exact I. }
  destruct REL as (RA & _). rewrite RA. reflexivity.
Qed.
Lemma sight_own : forall key d coins, length key = 57%nat -> bytes key -> enc_sign key = false -> In d (strings 114) -> In coins (vectors both (S n)) -> let s := secret_scalar d in
  b2z (judge W (real_sight n next key d coins)) <=
  b2z (own_judged s coins) + b2z (asks_key n (next (pk s)) idle s coins key) + b2z (asks_prefix n (next (pk s)) idle s coins (skipn 57 d)).
Proof.
  intros key d coins KL KB KS DI CI s. pose proof (b2z_nonneg (own_judged s coins)) as N1.
  destruct (asks_key n (next (pk s)) idle s coins key) eqn:B1; [ pose proof (b2z_nonneg (asks_prefix n (next (pk s)) idle s coins (skipn 57 d))); destruct (judge _ _); cbn [b2z]; lia | ].
  destruct (asks_prefix n (next (pk s)) idle s coins (skipn 57 d)) eqn:B2; [ destruct (judge _ _); cbn [b2z]; lia | ].
  cbn [b2z]. rewrite !Z.add_0_r. apply Z.eq_le_incl. f_equal. rewrite (sight_is key d coins KL KB KS DI CI); [ reflexivity | ].
  intros x J. assert (I : In x (asked n (next (pk s)) idle s coins)) by (right; exact J). split.
  - intro E. assert (asks_key n (next (pk s)) idle s coins key = true); [ | congruence ]. unfold asks_key. apply existsb_exists. exists x. split; [ exact I | ]. rewrite E. apply same_refl.
  - intro E. assert (asks_prefix n (next (pk s)) idle s coins (skipn 57 d) = true); [ | congruence ]. unfold asks_prefix. apply existsb_exists. exists x. split; [ exact I | ]. rewrite E.
    change (skipn 10 (rfc_dom ++ skipn 57 d)) with (skipn 57 d). apply same_refl.
Qed.
Lemma sight_value : forall s, lsum (fun c => b2z (own_judged s c)) (vectors both (S n)) =
  value (own_step s (next (pk s))) (fun st coin => (fun st (_ : list Z) => W (pk s, answers st)) st (fst coin)) both n (View [] [] []).
Proof. intro s. unfold value. apply lsum_ext. intros c I. unfold own_judged, own_end. rewrite (play_fold _ _ _ _ ([], []) n _ c (vectors_length _ _ _ I)). reflexivity. Qed.
Lemma sim_sight_value : forall s, lsum (fun c => b2z (W (sim_sight n next (emul s ebase) c))) (vectors half (S n)) =
  value (sim_step (next (pk s)) (emul s ebase)) (fun st coin => (fun st (_ : list Z) => W (pk s, answers st)) st (fst coin)) half n (View [] [] []).
Proof. intro s. unfold value. apply lsum_ext. intros c I. unfold sim_sight, sim_end. rewrite (play_fold _ _ _ _ ([], 0) n _ c (vectors_length _ _ _ I)). reflexivity. Qed.
Theorem sight_total : let N := 256 ^ 114 in let L := N / q448 + 1 in let K := Z.of_nat (length seeds) in
  tally (fun w => judge W (real_sight n next (fst w) (fst (snd w)) (snd (snd w)))) (list_prod seeds (list_prod (strings 114) (vectors both (S n)))) <=
  K * (L ^ Z.of_nat (S n) * tally (fun w => W (sim_sight n next (emul (secret_scalar (fst w)) ebase) (snd w))) (list_prod (strings 114) (vectors half (S n))) +
       N * (Z.of_nat n * Z.of_nat n * (L * N * (N * q448 * L) ^ Z.of_nat n))) +
  Z.of_nat (S n) * (N + K * 256 ^ 57) * (N * N) ^ Z.of_nat (S n).
Proof.
  intros N L K. change (256 ^ 114 / q448) with share in L. rewrite !tally_b2z, !lsum_prod. cbn [fst snd].
  pose proof (key_hits n next (fun _ => idle) (strings 114) seeds _ eq_refl eq_refl) as K1.
  pose proof (prefix_hits n next (fun _ => idle) (strings 114) (strings 57) _ eq_refl eq_refl eq_refl) as K2.
  rewrite vectors_count, prod_length, Nat2Z.inj_mul, strings_total in K1, K2. fold N in K1, K2.
  assert (H57 : Z.of_nat (length (strings 57)) = 256 ^ 57) by (rewrite <- tally_all; exact (count_all 57)). rewrite H57 in K2.
  eapply Z.le_trans; [ apply (lsum_le _ (fun k => (lsum (fun d => lsum (fun c => b2z (own_judged (secret_scalar d) c)) (vectors both (S n))) (strings 114) +
    lsum (fun d => lsum (fun c => b2z (asks_key n (next (pk (secret_scalar d))) idle (secret_scalar d) c k)) (vectors both (S n))) (strings 114)) +
    lsum (fun d => lsum (fun c => b2z (asks_prefix n (next (pk (secret_scalar d))) idle (secret_scalar d) c (skipn 57 d))) (vectors both (S n))) (strings 114))) | ].
  - intros k Ik. apply seeds_in in Ik as (L0 & B & E). rewrite lsum_prod. cbn [fst snd]. rewrite <- !lsum_add. apply lsum_le. intros d Id. rewrite <- !lsum_add. apply lsum_le. intros c Ic.
    exact (sight_own k d c L0 B E Id Ic).
  - rewrite !lsum_add, !lsum_const. fold K.
    assert (S1 : forall d, In d (strings 114) -> lsum (fun c => b2z (own_judged (secret_scalar d) c)) (vectors both (S n)) <=
      L ^ Z.of_nat (S n) * lsum (fun c => b2z (W (sim_sight n next (emul (secret_scalar d) ebase) c))) (vectors half (S n)) +
      Z.of_nat n * Z.of_nat n * (L * N * (N * q448 * L) ^ Z.of_nat n)).
    { intros d _. rewrite sight_value, sim_sight_value.
      exact (hop2 (secret_scalar d) (next (pk (secret_scalar d))) (fun st _ => W (pk (secret_scalar d), answers st)) _ _ eq_refl eq_refl N q448 L eq_refl eq_refl eq_refl n (View [] [] [])). }
    pose proof (lsum_le _ _ _ S1) as S2. rewrite lsum_add, lsum_mul, lsum_const, strings_total in S2. fold N in S2. clear S1.
    revert K1 K2 S2.
    generalize (lsum (fun k => lsum (fun d => lsum (fun c => b2z (asks_key n (next (pk (secret_scalar d))) idle (secret_scalar d) c k)) (vectors both (S n))) (strings 114)) seeds)
      (lsum (fun d => lsum (fun c => b2z (asks_prefix n (next (pk (secret_scalar d))) idle (secret_scalar d) c (skipn 57 d))) (vectors both (S n))) (strings 114))
      (lsum (fun d => lsum (fun c => b2z (own_judged (secret_scalar d) c)) (vectors both (S n))) (strings 114))
      (lsum (fun d => lsum (fun c => b2z (W (sim_sight n next (emul (secret_scalar d) ebase) c))) (vectors half (S n))) (strings 114)).
    assert (K0 : 0 <= K) by apply Nat2Z.is_nonneg. clearbody K.
    generalize (Z.of_nat (S n)) (Z.of_nat n). clearbody N L. generalize (256 ^ 57). intros D m z a b o w K1 K2 S2.
    generalize dependent (z * z * (L * N * (N * q448 * L) ^ z)). generalize dependent ((N * N) ^ m). generalize dependent (L ^ m). intros l V K1 K2 e S2.
    assert (K3 : K * b <= K * (D * (V * m))) by (apply Z.mul_le_mono_nonneg_l; assumption). assert (K4 : K * o <= K * (l * w + N * e)) by (apply Z.mul_le_mono_nonneg_l; assumption).
    replace (m * (N + K * D) * V) with (N * (V * m) + K * (D * (V * m))) by ring. clear - K1 K3 K4. lia.
Qed.
End Seeds.

(* numbers *)
Section Numbers.
Variables N q L : Z.
Hypothesis Hq : 0 < q.
Hypothesis HL : 0 <= L.
Hypothesis HLq : L * q <= N + q.
Lemma near : forall m P, 0 <= m -> 0 < N -> 2 * (m * q) <= N -> 0 <= P -> P * (2 * (m * q)) <= N -> P * (L ^ m * (N * q) ^ m) <= (P + 1) * (N * N) ^ m.
Proof.
  intros m P Hm HN B HP S. assert (E0 : 0 <= (N + q) ^ m) by (apply Z.pow_nonneg; lia). assert (V0 : 0 <= N ^ m) by (apply Z.pow_nonneg; lia).
  assert (E1 : (L * q) ^ m <= (N + q) ^ m) by (apply Z.pow_le_mono_l; nia).
  assert (G : (N + q) ^ m * (N - m * q) <= N ^ (m + 1)) by (apply (grow N q L); try assumption; nia). rewrite Z.pow_add_r, Z.pow_1_r in G by lia.
  rewrite !Z.pow_mul_l in *. revert E0 V0 E1 G. generalize ((N + q) ^ m) (N ^ m) (L ^ m) (q ^ m). intros E v l u E0 V0 E1 G.
  assert (E2 : E <= 2 * v) by (apply (Z.mul_le_mono_pos_r _ _ N); [ exact HN | ]; nia).
  assert (D : P * (N * (E - v)) <= P * (2 * (m * q)) * v).
  { rewrite <- Z.mul_assoc. apply Z.mul_le_mono_nonneg_l; [ exact HP | ]. nia. }
  assert (F : P * (E - v) <= v).
  { apply (Z.mul_le_mono_pos_r _ _ N); [ exact HN | ]. replace (P * (E - v) * N) with (P * (N * (E - v))) by ring. apply Z.le_trans with (1 := D). rewrite (Z.mul_comm v N). apply Z.mul_le_mono_nonneg_r; assumption. }
  apply Z.le_trans with (P * (v * E)); [ apply Z.mul_le_mono_nonneg_l; [ exact HP | ]; replace (l * (v * u)) with (v * (l * u)) by ring; apply Z.mul_le_mono_nonneg_l; assumption | ].
  replace (P * (v * E)) with (v * (P * (E - v)) + P * (v * v)) by ring. replace ((P + 1) * (v * v)) with (v * v + P * (v * v)) by ring. apply Z.add_le_mono_r. apply Z.mul_le_mono_nonneg_l; assumption.
Qed.
Lemma seeds_gap : forall K D n P w real, 0 <= K -> 0 <= n -> 0 < N -> 2 * ((n + 1) * q) <= N -> 0 <= P -> P * (2 * ((n + 1) * q)) <= N -> P * (n * n) * 2 * L <= N -> P * ((n + 1) * (N + K * D)) <= K * N ->
  0 <= w <= N * (N * q) ^ (n + 1) ->
  real <= K * (L ^ (n + 1) * w + N * (n * n * (L * N * (N * q * L) ^ n))) + (n + 1) * (N + K * D) * (N * N) ^ (n + 1) ->
  P * (real * (N * (N * q) ^ (n + 1)) - w * (K * N * (N * N) ^ (n + 1))) <= 3 * ((K * N * (N * N) ^ (n + 1)) * (N * (N * q) ^ (n + 1))).
Proof.
  intros K D n P w real HK Hn HN B HP S2 S3 S4 W R. pose proof (near (n + 1) P ltac:(lia) HN B HP S2) as T1. pose proof (middle_term N q L Hq HL HLq n P Hn HN B HP S3) as T2.
  assert (PT : 0 <= (N * N) ^ (n + 1)) by (apply Z.pow_nonneg; nia). assert (PU : 0 <= (N * q) ^ (n + 1)) by (apply Z.pow_nonneg; nia).
  revert T1 T2 PT PU W R. generalize (L ^ (n + 1)) (n * n * (L * N * (N * q * L) ^ n)) ((N * N) ^ (n + 1)) ((N * q) ^ (n + 1)). intros l b v u T1 T2 PT PU W R.
  assert (M0 : 0 <= N * u) by nia. apply (Z.mul_le_mono_nonneg_r _ _ (N * u) M0) in R. apply (Z.mul_le_mono_nonneg_l _ _ P HP) in R.
  assert (A1 : K * w * N * (P * (l * u)) <= K * w * N * ((P + 1) * v)) by (apply Z.mul_le_mono_nonneg_l; [ | exact T1 ]; apply Z.mul_nonneg_nonneg; [ nia | lia ]).
  assert (A2 : K * N * (N * u) * (P * b) <= K * N * (N * u) * v) by (apply Z.mul_le_mono_nonneg_l; [ | exact T2 ]; nia).
  assert (A3 : v * (N * u) * (P * ((n + 1) * (N + K * D))) <= v * (N * u) * (K * N)) by (apply Z.mul_le_mono_nonneg_l; [ | exact S4 ]; nia).
  assert (A4 : K * N * v * w <= K * N * v * (N * u)) by (apply Z.mul_le_mono_nonneg_l; [ | exact (proj2 W) ]; nia).
  replace (P * ((K * (l * w + N * b) + (n + 1) * (N + K * D) * v) * (N * u))) with (K * w * N * (P * (l * u)) + K * N * (N * u) * (P * b) + v * (N * u) * (P * ((n + 1) * (N + K * D)))) in R by ring.
  replace (K * w * N * ((P + 1) * v)) with (P * (w * (K * N * v)) + K * N * v * w) in A1 by ring. rewrite Z.mul_sub_distr_l.
  replace (3 * (K * N * v * (N * u))) with (K * N * v * (N * u) + K * N * (N * u) * v + v * (N * u) * (K * N)) by ring. lia.
Qed.
Lemma expanded_gap : forall n P w rd real, 0 <= n -> 0 < N -> 2 * ((n + 1) * q) <= N -> 0 <= P -> P * (2 * ((n + 1) * q)) <= N -> P * (n * n) * 2 * L <= N ->
  0 <= w <= (N * q) ^ (n + 1) -> 0 <= rd <= (N * q) ^ (n + 1) ->
  real <= L ^ (n + 1) * (w + rd) + n * n * (L * N * (N * q * L) ^ n) ->
  P * (real * (N * q) ^ (n + 1) - (w + rd) * (N * N) ^ (n + 1)) <= 3 * ((N * N) ^ (n + 1) * (N * q) ^ (n + 1)).
Proof.
  intros n P w rd real Hn HN B HP S2 S3 W W' R. pose proof (near (n + 1) P ltac:(lia) HN B HP S2) as T1. pose proof (middle_term N q L Hq HL HLq n P Hn HN B HP S3) as T2.
  assert (PT : 0 <= (N * N) ^ (n + 1)) by (apply Z.pow_nonneg; nia). assert (PU : 0 <= (N * q) ^ (n + 1)) by (apply Z.pow_nonneg; nia).
  revert T1 T2 PT PU W W' R. generalize (L ^ (n + 1)) (n * n * (L * N * (N * q * L) ^ n)) ((N * N) ^ (n + 1)) ((N * q) ^ (n + 1)). intros l b v u T1 T2 PT PU W W' R.
  apply (Z.mul_le_mono_nonneg_r _ _ u PU) in R. apply (Z.mul_le_mono_nonneg_l _ _ P HP) in R.
  assert (A1 : (w + rd) * (P * (l * u)) <= (w + rd) * ((P + 1) * v)) by (apply Z.mul_le_mono_nonneg_l; [ lia | exact T1 ]).
  assert (A2 : u * (P * b) <= u * v) by (apply Z.mul_le_mono_nonneg_l; [ exact PU | exact T2 ]).
  assert (A4 : v * (w + rd) <= v * (2 * u)) by (apply Z.mul_le_mono_nonneg_l; [ exact PT | lia ]).
  replace (P * ((l * (w + rd) + b) * u)) with ((w + rd) * (P * (l * u)) + u * (P * b)) in R by ring.
  replace ((w + rd) * ((P + 1) * v)) with (P * ((w + rd) * v) + v * (w + rd)) in A1 by ring. rewrite Z.mul_sub_distr_l.
  replace (3 * (v * u)) with (v * (2 * u) + u * v) by ring. lia.
Qed.
End Numbers.
Lemma tally_le : forall (X : Type) (f : X -> bool) l, 0 <= tally f l <= Z.of_nat (length l).
Proof. intros X f l. split; [ apply tally_nonneg | ]. induction l as [ | x l IH ]; [ apply Z.le_refl | ]. cbn [tally length]. rewrite Nat2Z.inj_succ. destruct (f x); lia. Qed.
Lemma tally_neg : forall (X : Type) (f : X -> bool) l, tally (fun x => negb (f x)) l = Z.of_nat (length l) - tally f l.
Proof. intros X f. induction l as [ | x l IH ]; [ reflexivity | ]. cbn [tally length]. rewrite Nat2Z.inj_succ, IH. destruct (f x); cbn [negb]; lia. Qed.
Lemma tally_eq : forall (X : Type) (f g : X -> bool) l, (forall x, In x l -> f x = g x) -> tally f l = tally g l.
Proof. intros X f g l H. rewrite !tally_b2z. apply lsum_ext. intros x I. rewrite (H x I). reflexivity. Qed.
Lemma more_sizes : forall n t k, 0 <= n -> 0 <= t -> 0 <= k -> k + 2 * t <= 444 -> n + 1 <= 2 ^ t -> 2 ^ k * (2 * ((n + 1) * q448)) <= 256 ^ 114.
Proof.
  intros n t k Hn Ht Hk S B. assert (Hq : q448 <= 2 ^ 446) by (apply Z.leb_le; reflexivity). assert (Q0 : 0 < q448) by reflexivity. revert Hq Q0. generalize q448. intros q Hq Q0.
  assert (Pk : 0 < 2 ^ k) by (apply Z.pow_pos_nonneg; lia). assert (KT : 2 ^ k * 2 ^ t <= 2 ^ 444) by (rewrite <- Z.pow_add_r by lia; apply Z.pow_le_mono_r; lia).
  assert (K1 : 2 ^ k * (n + 1) <= 2 ^ 444) by (apply Z.le_trans with (2 := KT); apply Z.mul_le_mono_nonneg_l; lia).
  apply Z.le_trans with (2 * (2 ^ 444 * 2 ^ 446)); [ | apply Z.leb_le; reflexivity ]. replace (2 ^ k * (2 * ((n + 1) * q))) with (2 * (2 ^ k * (n + 1) * q)) by ring.
  apply Z.mul_le_mono_nonneg_l; [ discriminate | ]. apply Z.mul_le_mono_nonneg; [ nia | exact K1 | lia | exact Hq ].
Qed.
Lemma derives : forall key d n next coins, In key seeds -> In d (strings 114) -> exists v, real_sight n next key d coins = Some v.
Proof.
  intros key d n next coins KI DI. apply seeds_in in KI as (KL & KB & KS). assert (X0 : is_xof (table_xof [(key, d)])) by (apply table_bytes; intros x a [ E | [] ]; injection E as <- <-; exact DI).
  unfold real_sight. rewrite (derive_public_ok _ X0 key KL KB), KS. eexists. reflexivity.
Qed.
Section Rates.
Variable n : nat.
Variable next : list Z -> list (list Z) -> query.
Variables t k : Z.
Hypothesis Ht : 0 <= t.
Hypothesis Hk : 0 <= k.
Hypothesis HS : k + 2 * t <= 444.
Hypothesis HB : Z.of_nat (S n) <= 2 ^ t.
Local Notation games := (list_prod seeds (list_prod (strings 114) (vectors both (S n)))).
Local Notation runs := (list_prod (strings 114) (vectors half (S n))).
Local Notation real W := (tally (fun w => judge W (real_sight n next (fst w) (fst (snd w)) (snd (snd w)))) games).
Local Notation made W := (tally (fun w => W (sim_sight n next (emul (secret_scalar (fst w)) ebase) (snd w))) runs).
Lemma games_count : Z.of_nat (length games) = 2 ^ 455 * 256 ^ 114 * (256 ^ 114 * 256 ^ 114) ^ (Z.of_nat n + 1).
Proof. rewrite !prod_count, seeds_455, strings_total, answers_count, Nat2Z.inj_succ. unfold Z.succ. ring. Qed.
Lemma runs_count : Z.of_nat (length runs) = 256 ^ 114 * (256 ^ 114 * q448) ^ (Z.of_nat n + 1).
Proof. rewrite !prod_count, strings_total, coins_count, Nat2Z.inj_succ. reflexivity. Qed.
Lemma one_way : forall W : sight -> bool, 2 ^ k * (real W * Z.of_nat (length runs) - made W * Z.of_nat (length games)) <= 3 * (Z.of_nat (length games) * Z.of_nat (length runs)).
Proof.
  intro W. pose proof (sight_total n next W) as T. cbv zeta in T. pose proof (tally_le _ (fun w => W (sim_sight n next (emul (secret_scalar (fst w)) ebase) (snd w))) runs) as M. rewrite runs_count in M.
  rewrite games_count, runs_count. rewrite seeds_455 in T. revert T M. generalize (real W) (made W). intros r w T M.
  rewrite Nat2Z.inj_succ in *. pose proof HB as B. unfold Z.succ in *. pose proof (Nat2Z.is_nonneg n) as Hn. destruct L_bounds as ((L0 & _) & LQ).
  destruct (sizes (Z.of_nat n) t k Hn Ht Hk HS B) as (S1 & _ & S3 & S4). pose proof (more_sizes (Z.of_nat n) t k Hn Ht Hk HS B) as S2.
  assert (P0 : 0 <= 2 ^ k) by (apply Z.pow_nonneg; discriminate). assert (Q0 : 0 < q448) by reflexivity. assert (N0 : 0 < 256 ^ 114) by (apply Z.ltb_lt; reflexivity). assert (K0 : 0 <= 2 ^ 455) by (apply Z.leb_le; reflexivity).
  exact (seeds_gap (256 ^ 114) q448 (256 ^ 114 / q448 + 1) Q0 L0 LQ (2 ^ 455) (256 ^ 57) (Z.of_nat n) (2 ^ k) w r K0 Hn N0 S1 P0 S2 S3 S4 M T).
Qed.
Theorem seeds_simulated : forall W : sight -> bool, 2 ^ k * Z.abs (real W * Z.of_nat (length runs) - made W * Z.of_nat (length games)) <= 3 * (Z.of_nat (length games) * Z.of_nat (length runs)).
Proof.
  intro W. pose proof (one_way W) as H1. pose proof (one_way (fun v => negb (W v))) as H2.
  assert (E1 : real (fun v => negb (W v)) = Z.of_nat (length games) - real W).
  { rewrite <- tally_neg. apply tally_eq. intros (key, (d, c)) I. cbn [fst snd]. apply in_prod_iff in I as (I1 & I2). apply in_prod_iff in I2 as (I2 & _). destruct (derives key d n next c I1 I2) as (v & ->). reflexivity. }
  assert (E2 : made (fun v => negb (W v)) = Z.of_nat (length runs) - made W) by apply (tally_neg _ (fun w => W (sim_sight n next (emul (secret_scalar (fst w)) ebase) (snd w))) runs).
  rewrite E1, E2 in H2. clear E1 E2. assert (P0 : 0 <= 2 ^ k) by (apply Z.pow_nonneg; discriminate). revert H1 H2 P0.
  generalize (real W) (made W) (Z.of_nat (length runs)) (Z.of_nat (length games)) (2 ^ k). intros r m M T P H1 H2 P0.
  replace ((T - r) * M - (M - m) * T) with (- (r * M - m * T)) in H2 by ring. destruct (Z.abs_spec (r * M - m * T)) as [ (_ & ->) | (_ & ->) ]; assumption.
Qed.
End Rates.

(* keys which are the secret scalar: such a key is also the secret part of the input of the nonces *)
Section Expanded.
Variable n : nat.
Variable next : list Z -> list (list Z) -> query.
Variable key : list Z.
Hypothesis KI : In key expanded.
Local Notation s := (secret_scalar key).
Local Notation A := (emul (secret_scalar key) ebase).
Local Notation nx := (next (eencode (emul (secret_scalar key) ebase))).
Definition judged_or_shown (W : sight -> bool) (st : view) (_ : list Z) : bool := W (eencode A, answers st) || existsb (shows A) (map fst (known st)).
Lemma expanded_derives : forall coins, expanded_sight n next key coins = Some (eencode A, answers (fold_left (real_step nx key) (firstn n coins) (View [] [] []))).
Proof.
  intro coins. destruct (proj1 (expanded_in key) KI) as (KL & KB & KS). assert (X0 : is_xof (table_xof [])) by (apply table_bytes; intros x a []).
  unfold expanded_sight. rewrite (derive_public_ok _ X0 key KL KB), KS. reflexivity.
Qed.
Lemma expanded_own : forall W coins, In coins (vectors both (S n)) ->
  b2z (judge W (expanded_sight n next key coins)) <= b2z (judged_or_shown W (fold_left (own_step s nx) (firstn n coins) (View [] [] [])) (fst (nth n coins ([], [])))).
Proof.
  intros W coins CI. destruct (proj1 (expanded_in key) KI) as (KL & KB & KS). set (st := fold_left (own_step s nx) (firstn n coins) (View [] [] [])). unfold judged_or_shown.
  destruct (existsb (shows A) (map fst (known st))) eqn:B; [ rewrite orb_true_r; destruct (judge _ _); discriminate | ]. rewrite orb_false_r.
  apply Z.eq_le_incl. f_equal.
  assert (P : forall x, In x (map fst (known st)) -> other key x).
  { intros x I E. assert (X : existsb (shows A) (map fst (known st)) = true); [ | congruence ]. apply existsb_exists. exists x. split; [ exact I | ]. apply nonce_shows. exact E. }
  rewrite expanded_derives. cbn [judge].
  assert (REL : matched key (fold_left (real_step nx key) (firstn n coins) (View [] [] [])) st).
  { apply (fold_matched key nx KL KB KS).
    + unfold matched. cbn [answers signed]. split; [ reflexivity | ]. split; [ reflexivity | ]. change (known (View [] [] [])) with (@nil (list Z * list Z)).
      split; [ reflexivity | ]. split; [ reflexivity | ]. split; intros x a [].
    + intros (c, r) I. apply firstn_in in I. apply (vectors_in _ _ coins _ CI) in I. apply in_prod_iff in I. exact I.
    + intros x a I. apply P. apply (in_map fst _ (x, a)). exact I. }
  destruct REL as (RA & _). rewrite RA. reflexivity.
Qed.
Theorem expanded_total : forall W, let N := 256 ^ 114 in let L := N / q448 + 1 in
  tally (fun c => judge W (expanded_sight n next key c)) (vectors both (S n)) <=
  L ^ Z.of_nat (S n) * (tally (fun c => W (sim_sight n next A c)) (vectors half (S n)) + tally (sim_shows n next A) (vectors half (S n))) +
  Z.of_nat n * Z.of_nat n * (L * N * (N * q448 * L) ^ Z.of_nat n).
Proof.
  intros W N L. change (256 ^ 114 / q448) with share in L. rewrite !tally_b2z.
  eapply Z.le_trans; [ exact (lsum_le _ _ _ (expanded_own W)) | ].
  assert (E1 : lsum (fun c => b2z (judged_or_shown W (fold_left (own_step s nx) (firstn n c) (View [] [] [])) (fst (nth n c ([], []))))) (vectors both (S n)) =
    value (own_step s nx) (fun st coin => judged_or_shown W st (fst coin)) both n (View [] [] [])).
  { unfold value. apply lsum_ext. intros c I. rewrite (play_fold _ _ _ _ ([], []) n _ c (vectors_length _ _ _ I)). reflexivity. }
  assert (S0 : 0 <= share) by (vm_compute; discriminate). rewrite E1. eapply Z.le_trans; [ exact (hop2 s nx (judged_or_shown W) _ _ eq_refl eq_refl N q448 L eq_refl eq_refl eq_refl n (View [] [] [])) | ].
  assert (E2 : value (sim_step nx A) (fun st coin => judged_or_shown W st (fst coin)) half n (View [] [] []) <=
    lsum (fun c => b2z (W (sim_sight n next A c))) (vectors half (S n)) + lsum (fun c => b2z (sim_shows n next A c)) (vectors half (S n))).
  { unfold value. rewrite <- lsum_add. apply lsum_le. intros c I. rewrite (play_fold _ _ _ _ ([], 0) n _ c (vectors_length _ _ _ I)).
    unfold sim_sight, sim_shows, sim_inputs, sim_end, judged_or_shown. set (st := fold_left (sim_step nx A) (firstn n c) (View [] [] [])).
    destruct (W (eencode A, answers st)); destruct (existsb (shows A) (map fst (known st))); discriminate. }
  apply Z.add_le_mono_r. apply Z.mul_le_mono_nonneg_l; [ | exact E2 ]. apply Z.pow_nonneg. change L with (share + 1). revert S0. generalize share. intros z S0. lia.
Qed.
Variables t k : Z.
Hypothesis Ht : 0 <= t.
Hypothesis Hk : 0 <= k.
Hypothesis HS : k + 2 * t <= 444.
Hypothesis HB : Z.of_nat (S n) <= 2 ^ t.
Local Notation T := (Z.of_nat (length (vectors both (S n)))).
Local Notation M := (Z.of_nat (length (vectors half (S n)))).
Local Notation real W := (tally (fun c => judge W (expanded_sight n next key c)) (vectors both (S n))).
Local Notation made W := (tally (fun c => W (sim_sight n next A c)) (vectors half (S n))).
Local Notation shown := (tally (sim_shows n next A) (vectors half (S n))).
Lemma expanded_one_way : forall W : sight -> bool, 2 ^ k * (real W * M - (made W + shown) * T) <= 3 * (T * M).
Proof.
  intro W. pose proof (expanded_total W) as E. cbv zeta in E. pose proof (tally_le _ (fun c => W (sim_sight n next A c)) (vectors half (S n))) as M1. pose proof (tally_le _ (sim_shows n next A) (vectors half (S n))) as M2.
  rewrite coins_count in *. rewrite answers_count. revert E M1 M2. generalize (real W) (made W) shown. intros r w rd E M1 M2.
  rewrite Nat2Z.inj_succ in *. pose proof HB as B. unfold Z.succ in *. pose proof (Nat2Z.is_nonneg n) as Hn. destruct L_bounds as ((L0 & _) & LQ).
  destruct (sizes (Z.of_nat n) t k Hn Ht Hk HS B) as (S1 & _ & S3 & _). pose proof (more_sizes (Z.of_nat n) t k Hn Ht Hk HS B) as S2.
  assert (P0 : 0 <= 2 ^ k) by (apply Z.pow_nonneg; discriminate). assert (Q0 : 0 < q448) by reflexivity. assert (N0 : 0 < 256 ^ 114) by (apply Z.ltb_lt; reflexivity).
  exact (expanded_gap (256 ^ 114) q448 (256 ^ 114 / q448 + 1) Q0 L0 LQ (Z.of_nat n) (2 ^ k) w rd r Hn N0 S1 P0 S2 S3 M1 M2 E).
Qed.
Theorem expanded_simulated : forall W : sight -> bool, 2 ^ k * (Z.abs (real W * M - made W * T) - shown * T) <= 3 * (T * M).
Proof.
  intro W. pose proof (expanded_one_way W) as H1. pose proof (expanded_one_way (fun v => negb (W v))) as H2.
  assert (E1 : real (fun v => negb (W v)) = T - real W).
  { rewrite <- tally_neg. apply tally_eq. intros c I. rewrite expanded_derives. reflexivity. }
  assert (E2 : made (fun v => negb (W v)) = M - made W) by apply (tally_neg _ (fun c => W (sim_sight n next A c)) (vectors half (S n))).
  rewrite E1, E2 in H2. clear E1 E2. revert H1 H2.
  generalize (real W) (made W) M T shown (2 ^ k). intros r m z u sh P H1 H2.
  replace ((u - r) * z - (z - m + sh) * u) with (- (r * z - m * u) - sh * u) in H2 by ring. replace (r * z - (m + sh) * u) with (r * z - m * u - sh * u) in H1 by ring.
  destruct (Z.abs_spec (r * z - m * u)) as [ (_ & ->) | (_ & ->) ]; assumption.
Qed.
End Expanded.
Theorem shown_secret : forall s n next h, sim_shows n next (emul s ebase) h = true -> sim_shown n next (emul s ebase) h = s mod q448.
Proof.
  intros s n next h E. unfold sim_shows in E. unfold sim_shown. apply existsb_exists in E as (x & I & E).
  destruct (find (shows (emul s ebase)) (sim_inputs n next (emul s ebase) h)) as [ y | ] eqn:F.
  - apply find_some in F as (_ & F). apply (proj1 (shows_iff _ _)) in F. assert (R : 0 <= read_from y < q448) by (apply Z.mod_pos_bound; reflexivity).
    rewrite <- (Z.mod_small _ _ R). apply base_inj. exact F.
  - pose proof (find_none _ _ F x I) as K. congruence.
Qed.
