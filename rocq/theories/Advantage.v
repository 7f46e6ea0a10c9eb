(* The counts of Game.v put together: the rate of forgeries against the rate at which the secret is found. *)
From Coq Require Import ZArith List Bool Lia.
From Verif Require Import Base SpecField SpecBytes SpecScalar SpecCurve SpecDecode SpecEd448 SpecVerify SpecInternal SpecUniform SpecProtocol SpecQueries SpecForger.
From Verif Require Import Bytes Errors Eddsa Goldilocks Game.
From Verif Require Import Field Edwards Isogeny CombMul BaseTables PrimeQ Decode Verify Ed448 Order Equation Facts Sound Kernel Uniform Count Bind Alias Api Protocol Structure SmallKeys Queries Transcripts Unbias Forking Forger GameFork GameHop GameReal GameCase Complete GameExpanded.
Import ListNotations.
Open Scope Z_scope.
Local Opaque strings q448 below eencode emul.

(* numbers: N answers, L of them for one residue modulo q, V the coins of a run *)
Section Numbers.
Variables N q L : Z.
Hypothesis Hq : 0 < q.
Hypothesis HL : 0 <= L.
Hypothesis HLq : L * q <= N + q.
Lemma grow : forall m, 0 <= m -> m * q <= N -> (N + q) ^ m * (N - m * q) <= N ^ (m + 1).
Proof.
  intros m Hm. pattern m. apply natlike_ind; [ | | exact Hm ].
  - intros _. rewrite Z.pow_0_r. change (0 + 1) with 1. rewrite Z.pow_1_r. lia.
  - intros x Hx IH B. assert (B' : x * q <= N) by lia. specialize (IH B'). assert (HN : 0 <= N) by nia.
    unfold Z.succ. rewrite Z.pow_add_r, Z.pow_1_r by lia. rewrite (Z.pow_add_r N (x + 1) 1), Z.pow_1_r by lia.
    assert (P : 0 <= (N + q) ^ x) by (apply Z.pow_nonneg; lia).
    apply Z.le_trans with ((N + q) ^ x * (N - x * q) * N).
    + rewrite <- !Z.mul_assoc. apply Z.mul_le_mono_nonneg_l; [ exact P | ]. nia.
    + apply Z.mul_le_mono_nonneg_r; assumption.
Qed.
Lemma double : forall m, 0 <= m -> 2 * (m * q) <= N -> (L * q) ^ m <= 2 * N ^ m.
Proof.
  intros m Hm B. assert (HN : 0 <= N) by nia.
  apply Z.le_trans with ((N + q) ^ m); [ apply Z.pow_le_mono_l; nia | ].
  destruct (Z.eq_dec N 0) as [ -> | NZ ].
  - assert (m = 0) by nia. subst m. rewrite !Z.pow_0_r. lia.
  - pose proof (grow m Hm ltac:(nia)) as G. rewrite Z.pow_add_r, Z.pow_1_r in G by lia. assert (P : 0 <= (N + q) ^ m) by (apply Z.pow_nonneg; lia).
    apply (Z.mul_le_mono_pos_r _ _ N); [ lia | ]. nia.
Qed.
(* w forging runs out of M = C V, r revealing pairs; X = 2^k w *)
Lemma quadratic : forall X M, 0 <= M -> 0 <= X -> X * X <= M * M + X * M -> X <= 2 * M.
Proof. intros X M HM HX H. destruct (Z.le_gt_cases X (2 * M)) as [ E | E ]; [ exact E | exfalso; nia ]. Qed.
Lemma forked : forall C V m t k w r b, 0 < N -> 0 <= C -> 0 <= V -> 0 <= t -> 0 <= k -> 0 <= m <= 2 ^ t -> 0 <= w -> 0 <= r -> 2 ^ (t + k) * L <= N -> N * b = V * L -> 0 <= b ->
  w * w <= C * (m * (r + w * b)) -> 2 ^ (2 * k + t) * r <= C * (V * V) -> 2 ^ k * w <= 2 * (C * V).
Proof.
  intros C V m t k w r b HN HC HV Ht Hk Hm Hw Hr B Eb Hb F R.
  assert (P : 0 < 2 ^ k) by (apply Z.pow_pos_nonneg; lia). assert (Pt : 0 < 2 ^ t) by (apply Z.pow_pos_nonneg; lia).
  apply quadratic; [ nia | nia | ].
  rewrite Z.pow_add_r in B by lia. replace (2 * k + t) with (k + k + t) in R by ring. rewrite !Z.pow_add_r in R by lia. set (K := 2 ^ k) in *. set (T := 2 ^ t) in *. clearbody K T.
  apply (Z.mul_le_mono_pos_r _ _ N); [ exact HN | ].
  apply Z.le_trans with (K * K * (C * (T * (r + w * b))) * N).
  - apply Z.mul_le_mono_nonneg_r; [ lia | ]. replace (K * w * (K * w)) with (K * K * (w * w)) by ring. apply Z.mul_le_mono_nonneg_l; [ nia | ].
    apply Z.le_trans with (1 := F). apply Z.mul_le_mono_nonneg_l; [ exact HC | ]. apply Z.mul_le_mono_nonneg_r; [ nia | lia ].
  - replace (K * K * (C * (T * (r + w * b))) * N) with (C * N * (K * K * T * r) + C * (K * w) * (T * K) * (N * b)) by ring. rewrite Eb.
    replace ((C * V * (C * V) + K * w * (C * V)) * N) with (C * N * (C * (V * V)) + C * (K * w) * V * N) by ring.
    apply Z.add_le_mono; [ apply Z.mul_le_mono_nonneg_l; [ nia | exact R ] | ].
    replace (C * (K * w) * (T * K) * (V * L)) with (C * (K * w) * V * (T * K * L)) by ring.
    apply Z.mul_le_mono_nonneg_l; [ | exact B ]. apply Z.mul_nonneg_nonneg; [ | exact HV ]. apply Z.mul_nonneg_nonneg; nia.
Qed.
Lemma main_term : forall C n P w, 0 <= C -> 0 <= n -> 0 < N -> 2 * ((n + 1) * q) <= N -> 0 <= P -> P * w <= 2 * (C * (N * q) ^ (n + 1)) ->
  P * (L ^ (n + 1) * w) <= 4 * (C * (N * N) ^ (n + 1)).
Proof.
  intros C n P w HC Hn HN B HP W. pose proof (double (n + 1) ltac:(lia) B) as D. assert (PL : 0 <= L ^ (n + 1)) by (apply Z.pow_nonneg; exact HL).
  apply Z.le_trans with (L ^ (n + 1) * (2 * (C * (N * q) ^ (n + 1)))).
  - replace (P * (L ^ (n + 1) * w)) with (L ^ (n + 1) * (P * w)) by ring. apply Z.mul_le_mono_nonneg_l; assumption.
  - rewrite !Z.pow_mul_l in *. assert (PN : 0 <= N ^ (n + 1)) by (apply Z.pow_nonneg; lia). revert D PN PL. generalize (L ^ (n + 1)) (q ^ (n + 1)) (N ^ (n + 1)). intros l u v D PN PL.
    replace (l * (2 * (C * (v * u)))) with (2 * (C * v) * (l * u)) by ring. replace (4 * (C * (v * v))) with (2 * (C * v) * (2 * v)) by ring. apply Z.mul_le_mono_nonneg_l; [ nia | exact D ].
Qed.
Lemma middle_term : forall n P, 0 <= n -> 0 < N -> 2 * ((n + 1) * q) <= N -> 0 <= P -> P * (n * n) * 2 * L <= N ->
  P * (n * n * (L * N * (N * q * L) ^ n)) <= (N * N) ^ (n + 1).
Proof.
  intros n P Hn HN B HP S. pose proof (double n Hn ltac:(nia)) as D. rewrite (Z.pow_add_r (N * N) n 1), Z.pow_1_r by lia.
  replace (N * q * L) with (N * (L * q)) by ring. rewrite !Z.pow_mul_l in *. assert (PN : 0 <= N ^ n) by (apply Z.pow_nonneg; lia). revert D PN. generalize (L ^ n * q ^ n) (N ^ n). intros d v D PN.
  apply Z.le_trans with (P * (n * n) * L * N * v * (2 * v)).
  - replace (P * (n * n * (L * N * (v * d)))) with (P * (n * n) * L * N * v * d) by ring. apply Z.mul_le_mono_nonneg_l; [ | exact D ].
    assert (0 <= P * (n * n) * L) by (apply Z.mul_nonneg_nonneg; [ nia | exact HL ]). apply Z.mul_nonneg_nonneg; [ nia | exact PN ].
  - replace (P * (n * n) * L * N * v * (2 * v)) with (v * v * N * (P * (n * n) * 2 * L)) by ring. replace (v * v * (N * N)) with (v * v * N * N) by ring. apply Z.mul_le_mono_nonneg_l; [ nia | exact S ].
Qed.
Lemma seeds_sum : forall K D n P w real, 0 <= K -> 0 <= n -> 0 < N -> 2 * ((n + 1) * q) <= N -> 0 <= P -> P * (n * n) * 2 * L <= N -> P * ((n + 1) * (N + K * D)) <= K * N ->
  P * w <= 2 * (N * (N * q) ^ (n + 1)) ->
  real <= K * (L ^ (n + 1) * w + N * (n * n * (L * N * (N * q * L) ^ n))) + (n + 1) * (N + K * D) * (N * N) ^ (n + 1) ->
  P * real <= 6 * (K * N * (N * N) ^ (n + 1)).
Proof.
  intros K D n P w real HK Hn HN B HP S3 S4 W R. pose proof (main_term N n P w ltac:(lia) Hn HN B HP W) as T1. pose proof (middle_term n P Hn HN B HP S3) as T2.
  assert (PT : 0 <= (N * N) ^ (n + 1)) by (apply Z.pow_nonneg; nia). apply (Z.mul_le_mono_nonneg_l _ _ P HP) in R. apply Z.le_trans with (1 := R). clear R.
  revert T1 T2 PT. generalize (L ^ (n + 1) * w) (n * n * (L * N * (N * q * L) ^ n)) ((N * N) ^ (n + 1)). intros a b v T1 T2 PT.
  replace (P * (K * (a + N * b) + (n + 1) * (N + K * D) * v)) with (K * (P * a) + K * N * (P * b) + v * (P * ((n + 1) * (N + K * D)))) by ring.
  replace (6 * (K * N * v)) with (K * (4 * (N * v)) + K * N * v + v * (K * N)) by ring.
  apply Z.add_le_mono; [ apply Z.add_le_mono | ]; apply Z.mul_le_mono_nonneg_l; try assumption; nia.
Qed.
Lemma expanded_sum : forall n P w rd real, 0 <= n -> 0 < N -> 2 * ((n + 1) * q) <= N -> 0 <= P -> P * (n * n) * 2 * L <= N ->
  P * w <= 2 * (1 * (N * q) ^ (n + 1)) -> P * rd <= 2 * (1 * (N * q) ^ (n + 1)) ->
  real <= L ^ (n + 1) * (w + rd) + n * n * (L * N * (N * q * L) ^ n) -> P * real <= 9 * (N * N) ^ (n + 1).
Proof.
  intros n P w rd real Hn HN B HP S3 W W' R. pose proof (main_term 1 n P w ltac:(lia) Hn HN B HP W) as T1. pose proof (main_term 1 n P rd ltac:(lia) Hn HN B HP W') as T1'. pose proof (middle_term n P Hn HN B HP S3) as T2.
  apply (Z.mul_le_mono_nonneg_l _ _ P HP) in R. apply Z.le_trans with (1 := R). clear R.
  rewrite Z.mul_add_distr_l in *. lia.
Qed.
End Numbers.

Lemma L_bounds : 0 <= 256 ^ 114 / q448 + 1 <= 2 ^ 467 /\ (256 ^ 114 / q448 + 1) * q448 <= 256 ^ 114 + q448.
Proof. split; [ split; apply Z.leb_le; vm_compute; reflexivity | apply Z.leb_le; vm_compute; reflexivity ]. Qed.
Lemma sizes : forall n t k, 0 <= n -> 0 <= t -> 0 <= k -> k + 2 * t <= 444 -> n + 1 <= 2 ^ t ->
  2 * ((n + 1) * q448) <= 256 ^ 114 /\ 2 ^ (t + k) * (256 ^ 114 / q448 + 1) <= 256 ^ 114 /\ 2 ^ k * (n * n) * 2 * (256 ^ 114 / q448 + 1) <= 256 ^ 114 /\
  2 ^ k * ((n + 1) * (256 ^ 114 + 2 ^ 455 * 256 ^ 57)) <= 2 ^ 455 * 256 ^ 114.
Proof.
  intros n t k Hn Ht Hk S B. destruct L_bounds as ((L0 & L1) & _). revert L0 L1. generalize (256 ^ 114 / q448 + 1). intros L L0 L1.
  assert (Hq : q448 <= 2 ^ 446) by (apply Z.leb_le; reflexivity). assert (Pk : 0 < 2 ^ k) by (apply Z.pow_pos_nonneg; lia). assert (Pt : 0 < 2 ^ t) by (apply Z.pow_pos_nonneg; lia).
  assert (T : 2 ^ t <= 2 ^ 222) by (apply Z.pow_le_mono_r; lia). assert (TK : 2 ^ (t + k) <= 2 ^ 444) by (apply Z.pow_le_mono_r; lia). assert (KT2 : 2 ^ (k + 2 * t) <= 2 ^ 444) by (apply Z.pow_le_mono_r; lia).
  assert (E : 2 ^ (k + 2 * t) = 2 ^ k * (2 ^ t * 2 ^ t)) by (replace (k + 2 * t) with (k + (t + t)) by ring; rewrite !Z.pow_add_r by lia; reflexivity). rewrite E in KT2.
  assert (E' : 2 ^ (t + k) = 2 ^ t * 2 ^ k) by (apply Z.pow_add_r; lia).
  assert (N2 : n * n <= 2 ^ t * 2 ^ t) by nia. assert (KN : 2 ^ k * (n * n) <= 2 ^ 444) by (apply Z.le_trans with (2 := KT2); apply Z.mul_le_mono_nonneg_l; lia).
  assert (K1 : 2 ^ k * (n + 1) <= 2 ^ 444) by (apply Z.le_trans with (2 ^ k * 2 ^ t); [ apply Z.mul_le_mono_nonneg_l; lia | rewrite Z.mul_comm, <- E'; exact TK ]).
  split; [ | split; [ | split ] ].
  - apply Z.le_trans with (2 * (2 ^ 222 * 2 ^ 446)); [ | apply Z.leb_le; reflexivity ]. apply Z.mul_le_mono_nonneg_l; [ lia | ]. apply Z.mul_le_mono_nonneg; [ lia | lia | apply Z.leb_le; reflexivity | exact Hq ].
  - apply Z.le_trans with (2 ^ 444 * 2 ^ 467); [ | apply Z.leb_le; reflexivity ]. apply Z.mul_le_mono_nonneg; [ rewrite E'; nia | exact TK | exact L0 | exact L1 ].
  - apply Z.le_trans with (2 ^ 444 * 2 * 2 ^ 467); [ | apply Z.leb_le; reflexivity ]. apply Z.mul_le_mono_nonneg; [ nia | lia | exact L0 | exact L1 ].
  - rewrite Z.mul_assoc. apply Z.le_trans with (2 ^ 444 * (256 ^ 114 + 2 ^ 455 * 256 ^ 57)); [ | apply Z.leb_le; reflexivity ]. apply Z.mul_le_mono_nonneg_r; [ apply Z.leb_le; reflexivity | exact K1 ].
Qed.
Lemma coins_count : forall m, Z.of_nat (length (vectors (list_prod (strings 114) (below q448)) m)) = (256 ^ 114 * q448) ^ Z.of_nat m.
Proof. intro m. rewrite vectors_count, prod_length, Nat2Z.inj_mul, strings_total, below_length by discriminate. reflexivity. Qed.
Lemma answers_count : forall m, Z.of_nat (length (vectors (list_prod (strings 114) (strings 114)) m)) = (256 ^ 114 * 256 ^ 114) ^ Z.of_nat m.
Proof. intro m. rewrite vectors_count, prod_length, Nat2Z.inj_mul, strings_total. reflexivity. Qed.
Lemma prod_count : forall (X Y : Type) (a : list X) (b : list Y), Z.of_nat (length (list_prod a b)) = Z.of_nat (length a) * Z.of_nat (length b).
Proof. intros X Y a b. rewrite prod_length. apply Nat2Z.inj_mul. Qed.
Lemma seeds_455 : Z.of_nat (length seeds) = 2 ^ 455.
Proof. pose proof seeds_count as E. revert E. generalize (Z.of_nat (length seeds)). intros K E. apply (Z.mul_reg_l _ _ 2); [ discriminate | ]. rewrite E. reflexivity. Qed.
Lemma tally_nonneg : forall (X : Type) (f : X -> bool) l, 0 <= tally f l.
Proof. intros X f. induction l as [ | x l IH ]; [ apply Z.le_refl | ]. cbn [tally]. destruct (f x); lia. Qed.

Local Opaque rfc_test real_game sim_game sim_game_reveals real_expanded sim_wins sim_reads sim_reveals.
Section Forgers.
Variable exact : list Z -> list Z -> list Z -> list Z -> bool.
Theorem seeds_bound : forall n next finish t k,
  (forall d a sig m, In d (strings 114) -> In a (strings 114) -> exact (eencode (emul (secret_scalar d) ebase)) a sig m = true ->
     bytes sig /\ (exists R, denotes (firstn 57 sig) R) /\
     ~ false_positive (table_xof [(forged_input (emul (secret_scalar d) ebase) (sig, m), a)]) (eencode (emul (secret_scalar d) ebase)) sig m) ->
  0 <= t -> 0 <= k -> k + 2 * t <= 444 -> Z.of_nat (S n) <= 2 ^ t ->
  let games := list_prod seeds (list_prod (strings 114) (vectors (list_prod (strings 114) (strings 114)) (S n))) in
  let coins := vectors (list_prod (strings 114) (below q448)) (S n) in
  let pairs := list_prod (strings 114) (list_prod coins coins) in
  2 ^ (2 * k + t) * tally (fun w => sim_game_reveals n next finish (emul (secret_scalar (fst w)) ebase) (fst (snd w)) (snd (snd w))) pairs <= Z.of_nat (length pairs) ->
  2 ^ k * tally (fun w => real_game n next finish exact (fst w) (fst (snd w)) (snd (snd w))) games <= 6 * Z.of_nat (length games).
Proof.
  intros n next finish t k HE Ht Hk S B games coins pairs R.
  pose proof (total n next finish exact) as T. cbv zeta in T. fold games in T. fold coins in T. rewrite seeds_455 in T.
  pose proof (average n next finish exact HE) as F. cbv zeta in F. fold coins in F. fold pairs in F.
  unfold pairs at 2 in R. unfold games at 2. rewrite !prod_count in R |- *. rewrite seeds_455, answers_count, strings_total in *. unfold coins at 1 2 in R. rewrite !coins_count in R.
  pose proof (tally_nonneg _ (fun w => sim_game_reveals n next finish (emul (secret_scalar (fst w)) ebase) (fst (snd w)) (snd (snd w))) pairs) as R0.
  pose proof (tally_nonneg _ (fun w => sim_game n next finish exact (emul (secret_scalar (fst w)) ebase) (snd w)) (list_prod (strings 114) coins)) as W0.
  revert T F R R0 W0. generalize (tally (fun w => sim_game_reveals n next finish (emul (secret_scalar (fst w)) ebase) (fst (snd w)) (snd (snd w))) pairs)
    (tally (fun w => sim_game n next finish exact (emul (secret_scalar (fst w)) ebase) (snd w)) (list_prod (strings 114) coins))
    (tally (fun w => real_game n next finish exact (fst w) (fst (snd w)) (snd (snd w))) games). clear games coins pairs. intros r w real T F R R0 W0.
  rewrite Nat2Z.inj_succ in *. unfold Z.succ in *. pose proof (Nat2Z.is_nonneg n) as Hn. revert Hn B T F R. generalize (Z.of_nat n). intros z Hn B T F R.
  destruct (sizes z t k Hn Ht Hk S B) as (S1 & S2 & S3 & S4). destruct L_bounds as ((L0 & _) & LQ).
  assert (HN : 0 < 256 ^ 114) by (apply Z.ltb_lt; reflexivity). assert (Hq : 0 < q448) by (apply Z.ltb_lt; reflexivity). assert (HK : 0 <= 2 ^ 455) by (apply Z.leb_le; reflexivity).
  revert T F R S1 S2 S3 S4 L0 LQ HN HK. generalize (256 ^ 114 / q448 + 1). intro L. generalize (256 ^ 114) (256 ^ 57) (2 ^ 455). intros N D K T F R S1 S2 S3 S4 L0 LQ HN HK.
  assert (PV : 0 <= (N * q448) ^ (z + 1)) by (apply Z.pow_nonneg; apply Z.mul_nonneg_nonneg; apply Z.lt_le_incl; assumption). assert (PV' : 0 <= (N * q448) ^ z) by (apply Z.pow_nonneg; apply Z.mul_nonneg_nonneg; apply Z.lt_le_incl; assumption).
  assert (W : 2 ^ k * w <= 2 * (N * (N * q448) ^ (z + 1))).
  { apply (forked N q448 L Hq L0 LQ N ((N * q448) ^ (z + 1)) (z + 1) t k w r ((N * q448) ^ z * (q448 * L))); try assumption; try (clear - HN Hn B; lia).
    - rewrite Z.pow_add_r, Z.pow_1_r by (clear - Hn; lia). ring.
    - apply Z.mul_nonneg_nonneg; [ exact PV' | apply Z.mul_nonneg_nonneg; [ apply Z.lt_le_incl; exact Hq | exact L0 ] ]. }
  rewrite Z.mul_assoc with (n := K). apply (seeds_sum N q448 L Hq L0 LQ K D z (2 ^ k) w real); try assumption. apply Z.pow_nonneg. discriminate.
Qed.
Theorem expanded_bound : forall n next finish t k key, In key expanded ->
  let A := emul (secret_scalar key) ebase in
  (forall a sig m, In a (strings 114) -> exact (eencode A) a sig m = true -> bytes sig /\ (exists R, denotes (firstn 57 sig) R) /\
    ~ false_positive (table_xof [(forged_input A (sig, m), a)]) (eencode A) sig m) ->
  0 <= t -> 0 <= k -> k + 2 * t <= 444 -> Z.of_nat (S n) <= 2 ^ t ->
  let games := vectors (list_prod (strings 114) (strings 114)) (S n) in
  let coins := vectors (list_prod (strings 114) (below q448)) (S n) in
  let pairs := list_prod coins coins in
  2 ^ (2 * k + t) * tally (fun p => sim_reveals n next finish A (fst p) (snd p)) pairs <= Z.of_nat (length pairs) ->
  2 ^ k * tally (sim_reads n next finish A) coins <= Z.of_nat (length coins) ->
  2 ^ k * tally (real_expanded n next finish exact key) games <= 9 * Z.of_nat (length games).
Proof.
  intros n next finish t k key I A HE Ht Hk S B games coins pairs R RD.
  pose proof (expanded_simulation n next finish exact key I) as T. cbv zeta in T. fold A in T. fold games in T. fold coins in T.
  pose proof (expanded_forking (secret_scalar key) n next finish exact HE) as F. cbv zeta in F. fold A in F. fold coins in F. fold pairs in F.
  unfold pairs at 2 in R. unfold games at 2. rewrite !prod_count in R. rewrite answers_count. unfold coins at 1 2 in R. unfold coins at 2 in RD. rewrite !coins_count in *.
  pose proof (tally_nonneg _ (fun p => sim_reveals n next finish A (fst p) (snd p)) pairs) as R0. pose proof (tally_nonneg _ (sim_wins n next finish exact A) coins) as W0.
  revert T F R R0 W0 RD. generalize (tally (fun p => sim_reveals n next finish A (fst p) (snd p)) pairs) (tally (sim_wins n next finish exact A) coins) (tally (sim_reads n next finish A) coins)
    (tally (real_expanded n next finish exact key) games). clear games coins pairs HE. intros r w rd real T F R R0 W0 RD.
  rewrite Nat2Z.inj_succ in *. unfold Z.succ in *. pose proof (Nat2Z.is_nonneg n) as Hn. revert Hn B T F R RD. generalize (Z.of_nat n). intros z Hn B T F R RD.
  destruct (sizes z t k Hn Ht Hk S B) as (S1 & S2 & S3 & _). destruct L_bounds as ((L0 & _) & LQ).
  assert (HN : 0 < 256 ^ 114) by (apply Z.ltb_lt; reflexivity). assert (Hq : 0 < q448) by (apply Z.ltb_lt; reflexivity).
  revert T F R RD S1 S2 S3 L0 LQ HN. generalize (256 ^ 114 / q448 + 1). intro L. generalize (256 ^ 114). intros N T F R RD S1 S2 S3 L0 LQ HN.
  assert (PV : 0 <= (N * q448) ^ (z + 1)) by (apply Z.pow_nonneg; apply Z.mul_nonneg_nonneg; apply Z.lt_le_incl; assumption). assert (PV' : 0 <= (N * q448) ^ z) by (apply Z.pow_nonneg; apply Z.mul_nonneg_nonneg; apply Z.lt_le_incl; assumption).
  assert (W : 2 ^ k * w <= 2 * (1 * (N * q448) ^ (z + 1))).
  { apply (forked N q448 L Hq L0 LQ 1 ((N * q448) ^ (z + 1)) (z + 1) t k w r ((N * q448) ^ z * (q448 * L))); try assumption; try (clear - HN Hn B; lia); try (rewrite Z.mul_1_l; assumption).
    - rewrite Z.pow_add_r, Z.pow_1_r by (clear - Hn; lia). ring.
    - apply Z.mul_nonneg_nonneg; [ exact PV' | apply Z.mul_nonneg_nonneg; [ apply Z.lt_le_incl; exact Hq | exact L0 ] ]. }
  apply (expanded_sum N q448 L Hq L0 LQ z (2 ^ k) w rd real); try assumption; [ apply Z.pow_nonneg; discriminate | clear - RD PV; lia ].
Qed.
End Forgers.

(* the condition of RFC 8032 leaves out only forgeries with a false positive in the last comparison or with an R which is no point *)
Theorem rfc_test_complete : forall xof, is_xof xof -> forall A, on_curve A -> subgroup_part A = A -> forall sig m R, bytes sig -> denotes (firstn 57 sig) R ->
  ed448_verify xof (eencode A) sig m = Some (Ok true) -> ~ false_positive xof (eencode A) sig m -> rfc_test (eencode A) (xof (forged_input A (sig, m)) 114%nat) sig m = true.
Proof.
  intros xof XOF A CA SA sig m R BS NR V NF.
  destruct (verify_errors xof XOF (eencode A) sig m (eencode_bytes A) BS) as (_ & _ & _ & _ & _ & (K & _) & _).
  destruct K as (NZ & D1 & LS & D2); [ exists true; exact V | ].
  apply (rfc_test_iff A _ sig m CA). rewrite <- (denotes_dpoint _ _ NR).
  split; [ exact BS | ]. split; [ exact LS | ]. split; [ exact NZ | ]. split; [ exact D1 | ]. split; [ exact D2 | ]. split; [ exact (proj1 NR) | ].
  destruct (verify_true xof XOF (eencode A) sig m A R (eencode_bytes A) BS NZ (denotes_eencode A CA) NR V) as [ Q | Q ]; [ exact Q | exfalso; exact (NF Q) ].
Qed.
Theorem seeds_rfc : forall n next finish t k, 0 <= t -> 0 <= k -> k + 2 * t <= 444 -> Z.of_nat (S n) <= 2 ^ t ->
  let games := list_prod seeds (list_prod (strings 114) (vectors (list_prod (strings 114) (strings 114)) (S n))) in
  let coins := vectors (list_prod (strings 114) (below q448)) (S n) in
  let pairs := list_prod (strings 114) (list_prod coins coins) in
  2 ^ (2 * k + t) * tally (fun w => sim_game_reveals n next finish (emul (secret_scalar (fst w)) ebase) (fst (snd w)) (snd (snd w))) pairs <= Z.of_nat (length pairs) ->
  2 ^ k * tally (fun w => real_game n next finish rfc_test (fst w) (fst (snd w)) (snd (snd w))) games <= 6 * Z.of_nat (length games).
Proof.
  intros n next finish t k. apply (seeds_bound rfc_test). intros d a sig m _ IA H. apply rfc_test_exact; [ apply emul_on; exact ebase_on | apply subgroup_base | exact IA | exact H ].
Qed.
Theorem expanded_rfc : forall n next finish t k key, In key expanded ->
  let A := emul (secret_scalar key) ebase in
  0 <= t -> 0 <= k -> k + 2 * t <= 444 -> Z.of_nat (S n) <= 2 ^ t ->
  let games := vectors (list_prod (strings 114) (strings 114)) (S n) in
  let coins := vectors (list_prod (strings 114) (below q448)) (S n) in
  let pairs := list_prod coins coins in
  2 ^ (2 * k + t) * tally (fun p => sim_reveals n next finish A (fst p) (snd p)) pairs <= Z.of_nat (length pairs) ->
  2 ^ k * tally (sim_reads n next finish A) coins <= Z.of_nat (length coins) ->
  2 ^ k * tally (real_expanded n next finish rfc_test key) games <= 9 * Z.of_nat (length games).
Proof.
  intros n next finish t k key I A. apply (expanded_bound rfc_test n next finish t k key I). intros a sig m IA H. apply rfc_test_exact; [ apply emul_on; exact ebase_on | apply subgroup_base | exact IA | exact H ].
Qed.
