(* How many y coordinates the range test of the decoder refuses. *)
From Coq Require Import ZArith List Bool Lia.
From Verif Require Import SpecField SpecBytes SpecCurve SpecDecode SpecUniform Base Bytes Errors ExtendedPoint Decode Uniform Facts.
Import ListNotations.
Open Scope Z_scope.

(* sums over 0 .. n - 1 *)
Fixpoint nsum (g : Z -> Z) (n : nat) : Z := match n with O => 0 | S m => nsum g m + g (Z.of_nat m) end.
Definition zsum (g : Z -> Z) (n : Z) : Z := nsum g (Z.to_nat n).
Lemma nsum_ext : forall g h n, (forall i, 0 <= i < Z.of_nat n -> g i = h i) -> nsum g n = nsum h n.
Proof.
  intros g h. induction n as [ | n IH ]; intro H; [ reflexivity | ]. cbn [nsum]. rewrite IH, (H (Z.of_nat n)) by (intros; try apply H; lia). reflexivity.
Qed.
Lemma zsum_ext : forall g h n, (forall i, 0 <= i < n -> g i = h i) -> zsum g n = zsum h n.
Proof. intros g h n H. apply nsum_ext. intros i Hi. apply H. lia. Qed.
Lemma nsum_app : forall g m n, nsum g (m + n) = nsum g m + nsum (fun i => g (Z.of_nat m + i)) n.
Proof.
  intros g m. induction n as [ | n IH ]; [ rewrite Nat.add_0_r; cbn [nsum]; ring | ]. rewrite Nat.add_succ_r. cbn [nsum]. rewrite IH, Nat2Z.inj_add. ring.
Qed.
Lemma zsum_app : forall g m n, 0 <= m -> 0 <= n -> zsum g (m + n) = zsum g m + zsum (fun i => g (m + i)) n.
Proof. intros g m n Hm Hn. unfold zsum. rewrite Z2Nat.inj_add, nsum_app, Z2Nat.id by lia. reflexivity. Qed.
Lemma nsum_const : forall c n, nsum (fun _ => c) n = Z.of_nat n * c.
Proof. intros c. induction n as [ | n IH ]; [ reflexivity | ]. cbn [nsum]. rewrite IH, Nat2Z.inj_succ. ring. Qed.
Lemma zsum_const : forall c n, 0 <= n -> zsum (fun _ => c) n = n * c.
Proof. intros c n H. unfold zsum. rewrite nsum_const, Z2Nat.id by exact H. reflexivity. Qed.
Lemma nsum_add : forall g h n, nsum (fun i => g i + h i) n = nsum g n + nsum h n.
Proof. intros g h. induction n as [ | n IH ]; [ reflexivity | ]. cbn [nsum]. rewrite IH. ring. Qed.
Lemma nsum_swap : forall (g : Z -> Z -> Z) m n, nsum (fun i => nsum (g i) n) m = nsum (fun j => nsum (fun i => g i j) m) n.
Proof.
  intros g m. induction n as [ | n IH ]; [ cbn [nsum]; rewrite nsum_const; ring | ]. cbn [nsum]. rewrite nsum_add, IH. reflexivity.
Qed.
(* i = lo + A hi *)
Lemma nsum_mul : forall g a b, nsum g (a * b) = nsum (fun lo => nsum (fun hi => g (lo + Z.of_nat a * hi)) b) a.
Proof.
  intros g a b. rewrite (nsum_swap (fun lo hi => g (lo + Z.of_nat a * hi))). induction b as [ | b IH ]; [ rewrite Nat.mul_0_r; reflexivity | ].
  rewrite Nat.mul_succ_r, nsum_app, IH. cbn [nsum]. f_equal. apply nsum_ext. intros i _. f_equal. rewrite Nat2Z.inj_mul. ring.
Qed.
Lemma zsum_mul : forall g a b, 0 <= a -> 0 <= b -> zsum g (a * b) = zsum (fun lo => zsum (fun hi => g (lo + a * hi)) b) a.
Proof. intros g a b Ha Hb. unfold zsum. rewrite Z2Nat.inj_mul, nsum_mul, Z2Nat.id by assumption. reflexivity. Qed.
Lemma tally_below : forall f n, tally f (below n) = zsum (fun i => if f i then 1 else 0) n.
Proof.
  intros f n. unfold below, zsum. rewrite count_map. induction (Z.to_nat n) as [ | m IH ]; [ reflexivity | ].
  rewrite seq_S, count_app, IH. cbn [tally nsum]. cbn [Nat.add]. ring.
Qed.
Lemma zsum_zero : forall g n, 0 <= n -> (forall i, 0 <= i < n -> g i = 0) -> zsum g n = 0.
Proof. intros g n Hn H. rewrite (zsum_ext g (fun _ => 0)) by exact H. rewrite zsum_const by exact Hn. ring. Qed.
(* the number of i below n with i < t *)
Lemma zsum_less : forall t n, 0 <= n -> t <= n -> zsum (fun i => if i <? t then 1 else 0) n = Z.max 0 t.
Proof.
  intros t n Hn Ht. replace n with (Z.max 0 t + (n - Z.max 0 t)) by lia. rewrite zsum_app by lia.
  rewrite (zsum_ext _ (fun _ => 1) (Z.max 0 t)) by (intros i Hi; destruct (Z.ltb_spec i t); [ reflexivity | lia ]).
  rewrite zsum_const by lia. rewrite zsum_zero; [ lia | lia | ]. intros i Hi. destruct (Z.ltb_spec (Z.max 0 t + i) t); [ lia | reflexivity ].
Qed.
(* a window *)
Lemma zsum_window : forall g a w n, 0 <= a -> 0 <= w -> a + w <= n -> (forall i, 0 <= i < n -> ~ a <= i < a + w -> g i = 0) ->
  zsum g n = zsum (fun u => g (a + u)) w.
Proof.
  intros g a w n Ha Hw Hn H. replace n with (a + (w + (n - a - w))) by lia. rewrite zsum_app, zsum_app by lia.
  rewrite (zsum_zero g a) by (try exact Ha; intros i Hi; apply H; lia).
  rewrite (zsum_zero (fun i => g (a + (w + i))) (n - a - w)) by (try lia; intros i Hi; apply H; lia). ring.
Qed.
Local Opaque zsum below.

(* the chain: the last two words decide, whatever the words before *)
Definition step (c n m : Z) : Z := (c + n - m) mod 2 ^ 32 / 2 ^ 8 * 4.
Lemma step_eq : forall c n m, (c + n - m) mod 2 ^ 32 / 2 ^ 8 * 4 = step c n m.
Proof. reflexivity. Qed.
Lemma chain_app : forall ns ms ns' ms' c, length ns = length ms -> range_chain c (ns ++ ns') (ms ++ ms') = range_chain (range_chain c ns ms) ns' ms'.
Proof.
  induction ns as [ | n ns IH ]; intros [ | m ms ] ns' ms' c L; try discriminate L; [ reflexivity | ]. cbn [app range_chain]. apply IH. injection L as L. exact L.
Qed.
Lemma words28_app : forall a b z, words28 (a + b) z = words28 a z ++ words28 b (z / 2 ^ (28 * Z.of_nat a)).
Proof.
  induction a as [ | a IH ]; intros b z; [ cbn [Nat.add words28 app]; rewrite Z.mul_0_r, Z.pow_0_r, Z.div_1_r; reflexivity | ].
  cbn [Nat.add words28 app]. rewrite IH. do 2 f_equal. rewrite Z.div_div by (try apply Z.pow_pos_nonneg; lia). rewrite <- Z.pow_add_r by lia. do 3 f_equal. lia.
Qed.
Lemma words28_low : forall a z k, words28 a (z + 2 ^ (28 * Z.of_nat a) * k) = words28 a z.
Proof.
  induction a as [ | a IH ]; intros z k; [ reflexivity | ]. cbn [words28]. rewrite Nat2Z.inj_succ.
  replace (28 * Z.succ (Z.of_nat a)) with (28 + 28 * Z.of_nat a) by lia. rewrite Z.pow_add_r by lia.
  replace (z + 2 ^ 28 * 2 ^ (28 * Z.of_nat a) * k) with (z + 2 ^ (28 * Z.of_nat a) * k * 2 ^ 28) by ring.
  rewrite Z.mod_add, Z.div_add by lia. rewrite IH. reflexivity.
Qed.
Definition carry14 (lo : Z) : Z := range_chain 0 (words28 14 lo) (firstn 14 range_words).
Lemma carry14_eq : forall lo, range_chain 0 (words28 14 lo) (firstn 14 range_words) = carry14 lo.
Proof. intro lo. unfold carry14. apply eq_refl. Qed.
Lemma words28_length : forall n z, length (words28 n z) = n.
Proof. induction n as [ | n IH ]; intro z; [ reflexivity | ]. cbn [words28 length]. rewrite IH. reflexivity. Qed.
Lemma step_bound : forall c n m, 0 <= step c n m < 2 ^ 26.
Proof.
  intros c n m. unfold step. pose proof (Z.mod_pos_bound (c + n - m) (2 ^ 32) ltac:(lia)) as B. set (t := (c + n - m) mod 2 ^ 32) in *.
  assert (0 <= t / 2 ^ 8 < 2 ^ 24) by (split; [ apply Z.div_pos; lia | apply Z.div_lt_upper_bound; lia ]). lia.
Qed.
Lemma carry14_bound : forall lo, 0 <= carry14 lo < 2 ^ 23.
Proof.
  intro lo. unfold carry14. change (firstn 14 range_words) with (firstn 12 range_words ++ [2 ^ 24 - 1; 2 ^ 32 - 1]).
  rewrite (words28_app 12 2), chain_app by (rewrite words28_length; reflexivity).
  set (c := range_chain 0 _ _). set (z := lo / 2 ^ (28 * Z.of_nat 12)). cbn [words28 range_chain].
  clearbody c z. rewrite (step_eq c (z mod 2 ^ 28) (2 ^ 24 - 1)).
  pose proof (step_bound c (z mod 2 ^ 28) (2 ^ 24 - 1)) as B. set (d := step _ _ _) in *. clearbody d. pose proof (Z.mod_pos_bound (z / 2 ^ 28) (2 ^ 28) ltac:(lia)) as W.
  set (w := (z / 2 ^ 28) mod 2 ^ 28) in *. clearbody w.
  assert (E : (d + w - (2 ^ 32 - 1)) mod 2 ^ 32 = d + w + 1) by (symmetry; apply (Z.mod_unique _ _ (-1)); lia). rewrite E.
  assert (0 <= (d + w + 1) / 2 ^ 8 < 2 ^ 21) by (split; [ apply Z.div_pos; lia | apply Z.div_lt_upper_bound; lia ]). lia.
Qed.
Lemma range_split : forall lo n14 n15, 0 <= lo < 2 ^ 392 -> 0 <= n14 < 2 ^ 28 -> 0 <= n15 < 2 ^ 28 ->
  negb (range_test (lo + 2 ^ 392 * (n14 + 2 ^ 28 * n15))) = (n15 <? 255 - step (carry14 lo) n14 (2 ^ 24 - 1)).
Proof.
  intros lo n14 n15 L H14 H15. unfold range_test. rewrite negb_involutive.
  change range_words with (firstn 14 range_words ++ [2 ^ 24 - 1; 2 ^ 32 - 1]). rewrite (words28_app 14 2), chain_app by (rewrite words28_length; reflexivity).
  change (28 * Z.of_nat 14) with 392. change (2 ^ 392 * (n14 + 2 ^ 28 * n15)) with (2 ^ (28 * Z.of_nat 14) * (n14 + 2 ^ 28 * n15)) at 1. rewrite words28_low.
  rewrite carry14_eq.
  assert (D : (lo + 2 ^ 392 * (n14 + 2 ^ 28 * n15)) / 2 ^ 392 = n14 + 2 ^ 28 * n15) by (symmetry; apply (Z.div_unique _ _ _ lo); [ left; exact L | ring ]).
  rewrite D. clear D. cbn [words28 range_chain].
  assert (D : (n14 + 2 ^ 28 * n15) / 2 ^ 28 = n15) by (symmetry; apply (Z.div_unique _ _ _ n14); [ left; exact H14 | ring ]).
  assert (M : (n14 + 2 ^ 28 * n15) mod 2 ^ 28 = n14) by (symmetry; apply (Z.mod_unique _ _ n15 n14); [ left; exact H14 | ring ]).
  rewrite D, M, (Z.mod_small n15) by exact H15. rewrite (step_eq (carry14 lo) n14 (2 ^ 24 - 1)).
  pose proof (step_bound (carry14 lo) n14 (2 ^ 24 - 1)) as B. set (d := step _ _ _) in *. clearbody d.
  assert (E : (d + n15 - (2 ^ 32 - 1)) mod 2 ^ 32 = d + n15 + 1) by (symmetry; apply (Z.mod_unique _ _ (-1)); lia). rewrite E.
  destruct (Z.ltb_spec n15 (255 - d)) as [ Lt | Ge ].
  - rewrite Z.div_small by lia. reflexivity.
  - apply Z.eqb_neq. assert (1 <= (d + n15 + 1) / 2 ^ 8) by (apply Z.div_le_lower_bound; lia). lia.
Qed.
Definition weight (u : Z) : Z := 255 - u / 2 ^ 8 * 4.
Lemma weight_sum : zsum weight (2 ^ 14) = 2113536.
Proof.
  assert (P14 : 2 ^ 14 = 2 ^ 8 * 2 ^ 6) by reflexivity. rewrite P14, zsum_mul by lia.
  assert (E : zsum (fun hi => 255 - hi * 4) (2 ^ 6) = 8256) by (vm_compute; reflexivity).
  rewrite (zsum_ext _ (fun _ => 8256)); [ rewrite zsum_const by lia; reflexivity | ].
  intros lo L. rewrite <- E. apply zsum_ext. intros hi _. unfold weight.
  replace (lo + 2 ^ 8 * hi) with (lo + hi * 2 ^ 8) by ring. rewrite Z.div_add, Z.div_small by lia. reflexivity.
Qed.
Definition refused (y : Z) : Z := if negb (range_test y) then 1 else 0.
Local Opaque range_test carry14.
Lemma word15_sum : forall lo n14, 0 <= lo < 2 ^ 392 -> 0 <= n14 < 2 ^ 28 ->
  zsum (fun n15 => refused (lo + 2 ^ 392 * (n14 + 2 ^ 28 * n15))) (2 ^ 28) = Z.max 0 (255 - step (carry14 lo) n14 (2 ^ 24 - 1)).
Proof.
  intros lo n14 L H14. pose proof (step_bound (carry14 lo) n14 (2 ^ 24 - 1)) as SB.
  rewrite <- (zsum_less (255 - step (carry14 lo) n14 (2 ^ 24 - 1)) (2 ^ 28)) by lia.
  apply zsum_ext. intros n15 H15. unfold refused. rewrite range_split by assumption. reflexivity.
Qed.
Lemma word14_sum : forall c, 0 <= c < 2 ^ 23 -> zsum (fun n14 => Z.max 0 (255 - step c n14 (2 ^ 24 - 1))) (2 ^ 28) = 2113536.
Proof.
  intros c C. rewrite (zsum_window _ (2 ^ 24 - 1 - c) (2 ^ 14)); [ | lia | lia | lia | ].
  - rewrite <- weight_sum. apply zsum_ext. intros u Hu. unfold step, weight.
    replace (c + (2 ^ 24 - 1 - c + u) - (2 ^ 24 - 1)) with u by ring. rewrite (Z.mod_small u) by lia.
    assert (u / 2 ^ 8 < 64) by (apply Z.div_lt_upper_bound; lia). lia.
  - intros i Hi N. unfold step. destruct (Z_lt_le_dec i (2 ^ 24 - 1 - c)) as [ Lt | Ge ].
    + assert (E : (c + i - (2 ^ 24 - 1)) mod 2 ^ 32 = c + i - (2 ^ 24 - 1) + 2 ^ 32) by (symmetry; apply (Z.mod_unique _ _ (-1)); lia). rewrite E.
      assert (2 ^ 20 <= (c + i - (2 ^ 24 - 1) + 2 ^ 32) / 2 ^ 8) by (apply Z.div_le_lower_bound; lia). lia.
    + rewrite Z.mod_small by lia. assert (64 <= (c + i - (2 ^ 24 - 1)) / 2 ^ 8) by (apply Z.div_le_lower_bound; lia). lia.
Qed.
Lemma top_sum : forall lo, 0 <= lo < 2 ^ 392 -> zsum (fun hi => refused (lo + 2 ^ 392 * hi)) (2 ^ 56) = 2113536.
Proof.
  intros lo L. assert (P56 : 2 ^ 56 = 2 ^ 28 * 2 ^ 28) by reflexivity. rewrite P56, zsum_mul by lia.
  rewrite <- (word14_sum (carry14 lo) (carry14_bound lo)). apply zsum_ext. intros n14 H14. exact (word15_sum lo n14 L H14).
Qed.
Theorem refused_all : tally (fun y => negb (range_test y)) (below (2 ^ 448)) = 2113536 * 2 ^ 392.
Proof.
  assert (P448 : 2 ^ 448 = 2 ^ 392 * 2 ^ 56) by reflexivity. rewrite tally_below, P448, zsum_mul by lia.
  rewrite (zsum_ext _ (fun _ => 2113536)) by (intros lo L; exact (top_sum lo L)). rewrite zsum_const by lia. reflexivity.
Qed.
Lemma above_p : forall y, p448 <= y < 2 ^ 448 -> range_test y = true.
Proof.
  intros y H. assert (P : p448 = 2 ^ 448 - 2 ^ 224 - 1) by reflexivity. pose proof (Z.div_mod y (2 ^ 392) ltac:(lia)) as DM.
  pose proof (Z.mod_pos_bound y (2 ^ 392) ltac:(lia)) as MB. set (lo := y mod 2 ^ 392) in *. set (hi := y / 2 ^ 392) in *.
  assert (HB : 2 ^ 56 - 2 < hi < 2 ^ 56) by lia. pose proof (Z.div_mod hi (2 ^ 28) ltac:(lia)) as DM2. pose proof (Z.mod_pos_bound hi (2 ^ 28) ltac:(lia)) as MB2.
  set (n14 := hi mod 2 ^ 28) in *. set (n15 := hi / 2 ^ 28) in *. assert (H15 : 2 ^ 28 - 2 < n15 < 2 ^ 28) by lia.
  apply negb_false_iff. rewrite DM, DM2. rewrite (Z.add_comm _ lo), (Z.add_comm _ n14), range_split by lia.
  apply Z.ltb_ge. pose proof (step_bound (carry14 lo) n14 (2 ^ 24 - 1)). lia.
Qed.
Theorem refused_below_p : tally (fun y => negb (range_test y)) (below p448) = 2113536 * 2 ^ 392.
Proof.
  rewrite <- refused_all, !tally_below. assert (P : p448 = 2 ^ 448 - 2 ^ 224 - 1) by reflexivity.
  replace (2 ^ 448) with (p448 + (2 ^ 448 - p448)) by ring. rewrite zsum_app by lia.
  rewrite (zsum_zero (fun i => if negb (range_test (p448 + i)) then 1 else 0)); [ ring | lia | ].
  intros i Hi. rewrite above_p by lia. reflexivity.
Qed.

Theorem refused_share : 2 ^ 34 * (2113536 * 2 ^ 392) < p448 < 2 ^ 35 * (2113536 * 2 ^ 392).
Proof. split; reflexivity. Qed.
Theorem not_rare : 2 ^ 100 * tally (fun y => negb (range_test y)) (below p448) > p448.
Proof. rewrite refused_below_p. reflexivity. Qed.
(* the decoder refuses every string with such a y *)
Theorem refused_decode : forall y b, 0 <= y < 2 ^ 448 -> 0 <= b < 256 -> range_test y = false ->
  eddsa_like_decode (le_bytes 56 y ++ [b]) = Some (Err DecodeError).
Proof.
  intros y b Y B H. assert (L : length (le_bytes 56 y ++ [b]) = 57%nat) by (rewrite app_length, le_bytes_length; reflexivity).
  assert (BB : bytes (le_bytes 56 y ++ [b])) by (apply bytes_app; split; [ apply le_bytes_bytes | constructor; [ exact B | constructor ] ]).
  apply (decode_iff _ BB). split; [ exact L | ]. intros (_ & _ & R & _). revert R. unfold enc_y.
  rewrite firstn_app, le_bytes_length, Nat.sub_diag, firstn_O, app_nil_r, firstn_all2 by (rewrite le_bytes_length; apply Nat.le_refl).
  rewrite le_val_le_bytes, Z.mod_small by exact Y. rewrite H. discriminate.
Qed.
Lemma refused_case : exists y, 0 <= y < p448 /\ range_test y = false /\ exists y', 0 <= y' < p448 /\ range_test y' = true.
Proof.
  exists (15732483 * 2 ^ 392). split; [ split; [ discriminate | reflexivity ] | ]. split; [ reflexivity | ].
  exists 2. split; [ split; [ discriminate | reflexivity ] | reflexivity ].
Qed.
Theorem refused_both : tally (fun y => negb (range_test y)) (below p448) = 2113536 * 2 ^ 392 /\
  tally (fun y => negb (range_test y)) (below (2 ^ 448)) = 2113536 * 2 ^ 392.
Proof. split; [ exact refused_below_p | exact refused_all ]. Qed.
