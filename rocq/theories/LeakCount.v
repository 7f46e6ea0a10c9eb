(* How many scalars read the same entries of the table. *)
From Coq Require Import ZArith List Bool Lia.
From Verif Require Import Base SpecField SpecBytes SpecScalar SpecCurve SpecDecode SpecEd448 SpecVerify SpecUniform SpecForger SpecTrace SpecLeak.
From Verif Require Import Bytes CombMul BaseTables Order Uniform Count Bind SmallKeys Structure Transcripts Unbias Forking Forger GameFork GameHop.
Import ListNotations.
Open Scope Z_scope.
Local Opaque q448 below.

Lemma round_eq : forall N N' i, comb_round N i = comb_round N' i -> forall j, 0 <= j < 5 -> comb_address N (Z.of_nat i) j = comb_address N' (Z.of_nat i) j.
Proof.
  intros N N' i E j Hj. unfold comb_round in E. cbn [map] in E. injection E as E0 E1 E2 E3 E4.
  assert (C : j = 0 \/ j = 1 \/ j = 2 \/ j = 3 \/ j = 4) by lia. destruct C as [ -> | [ -> | [ -> | [ -> | -> ] ] ] ]; assumption.
Qed.
Lemma rounds_eq : forall N N' n, comb_rounds N n = comb_rounds N' n -> forall i j, (i < n)%nat -> 0 <= j < 5 -> comb_address N (Z.of_nat i) j = comb_address N' (Z.of_nat i) j.
Proof.
  intros N N'. induction n as [ | n IH ]; intros E i j Hi Hj; [ lia | ]. cbn [comb_rounds] in E.
  assert (K : comb_round N n = comb_round N' n /\ comb_rounds N n = comb_rounds N' n) by (apply app_len_inj; [ reflexivity | exact E ]). destruct K as (K1 & K2).
  destruct (Nat.eq_dec i n) as [ -> | NE ]; [ exact (round_eq _ _ _ K1 j Hj) | apply (IH K2 i j); [ lia | exact Hj ] ].
Qed.
(* the bit which an address does not show *)
Definition hidden (N : Z) (x : nat * Z) : bool := comb_digit N (Z.of_nat (fst x)) (snd x) <? 16.
Definition places : list (nat * Z) := list_prod (seq 0 18) [0; 1; 2; 3; 4].
Definition signs (N : Z) : list bool := map (hidden N) places.
Lemma digit_of : forall N N' i j, comb_address N i j = comb_address N' i j -> (comb_digit N i j <? 16) = (comb_digit N' i j <? 16) -> comb_digit N i j = comb_digit N' i j.
Proof. intros N N' i j E S. unfold comb_address in E. rewrite S in E. destruct (comb_digit N' i j <? 16); lia. Qed.
Lemma bits_of : forall N N' i j k, comb_digit N i j = comb_digit N' i j -> 0 <= k < 5 -> (N / 2 ^ (i + 18 * (5 * j + k))) mod 2 = (N' / 2 ^ (i + 18 * (5 * j + k))) mod 2.
Proof.
  intros N N' i j k E Hk. unfold comb_digit in E.
  pose proof (fun e => Z.mod_pos_bound (N / 2 ^ e) 2 ltac:(lia)) as B. pose proof (fun e => Z.mod_pos_bound (N' / 2 ^ e) 2 ltac:(lia)) as B'.
  pose proof (B (i + 18 * (5 * j + 0))). pose proof (B (i + 18 * (5 * j + 1))). pose proof (B (i + 18 * (5 * j + 2))). pose proof (B (i + 18 * (5 * j + 3))). pose proof (B (i + 18 * (5 * j + 4))).
  pose proof (B' (i + 18 * (5 * j + 0))). pose proof (B' (i + 18 * (5 * j + 1))). pose proof (B' (i + 18 * (5 * j + 2))). pose proof (B' (i + 18 * (5 * j + 3))). pose proof (B' (i + 18 * (5 * j + 4))).
  assert (C : k = 0 \/ k = 1 \/ k = 2 \/ k = 3 \/ k = 4) by lia. destruct C as [ -> | [ -> | [ -> | [ -> | -> ] ] ] ]; lia.
Qed.
Lemma same_number : forall N N', 0 <= N < 2 ^ 450 -> 0 <= N' < 2 ^ 450 -> comb_rounds N 18 = comb_rounds N' 18 -> signs N = signs N' -> N = N'.
Proof.
  intros N N' R R' E S. apply Z.bits_inj'. intros t Ht. destruct (Z.lt_ge_cases t 450) as [ Lt | Ge ].
  - pose proof (Z.mod_pos_bound t 18 ltac:(lia)) as Hi. set (i := t mod 18) in *. pose proof (Z.div_mod t 18 ltac:(lia)) as Et. fold i in Et. set (u := t / 18) in *.
    assert (Hu : 0 <= u < 25) by lia. pose proof (Z.mod_pos_bound u 5 ltac:(lia)) as Hk. pose proof (Z.div_mod u 5 ltac:(lia)) as Eu. set (k := u mod 5) in *. set (j := u / 5) in *.
    assert (Hj : 0 <= j < 5) by lia.
    assert (D : comb_digit N i j = comb_digit N' i j).
    { rewrite <- (Z2Nat.id i) by lia. apply digit_of; [ apply (rounds_eq N N' 18 E); [ lia | exact Hj ] | ].
      assert (I : In (Z.to_nat i, j) places). { apply in_prod; [ apply in_seq; lia | ]. cbn [In]. lia. }
      unfold signs in S. pose proof (proj1 map_ext_in_iff S) as S'. exact (S' _ I). }
    pose proof (bits_of N N' i j k D Hk) as K. replace (i + 18 * (5 * j + k)) with t in K by lia.
    rewrite <- !Z.testbit_spec' in K by exact Ht. destruct (Z.testbit N t), (Z.testbit N' t); first [ reflexivity | discriminate K ].
  - rewrite <- (Z.mod_small N (2 ^ 450)), <- (Z.mod_small N' (2 ^ 450)) by assumption. rewrite !Z.mod_pow2_bits_high by lia. reflexivity.
Qed.
Lemma number_inj : forall s s', 0 <= s < q448 -> 0 <= s' < q448 -> comb_number s = comb_number s' -> s = s'.
Proof.
  intros s s' R R' E. unfold comb_number in E. pose proof inv4q as I4. assert (I2 : (2 * ((q448 + 1) / 2)) mod q448 = 1) by reflexivity.
  set (c4 := (q448 + 1) / 4) in *. set (c2 := (q448 + 1) / 2) in *. clearbody c4 c2.
  assert (F : forall x, (4 * (2 * ((x * c4 + 2 ^ 450 - 1) * c2) - (2 ^ 450 - 1))) mod q448 = x mod q448).
  { intro x. assert (G : (2 * ((x * c4 + 2 ^ 450 - 1) * c2)) mod q448 = (x * c4 + 2 ^ 450 - 1) mod q448).
    { replace (2 * ((x * c4 + 2 ^ 450 - 1) * c2)) with ((x * c4 + 2 ^ 450 - 1) * (2 * c2)) by ring. rewrite <- Z.mul_mod_idemp_r, I2, Z.mul_1_r by discriminate. reflexivity. }
    rewrite <- Z.mul_mod_idemp_r, Zminus_mod, G, <- Zminus_mod, Z.mul_mod_idemp_r by discriminate.
    replace (4 * (x * c4 + 2 ^ 450 - 1 - (2 ^ 450 - 1))) with (x * (4 * c4)) by ring. rewrite <- Z.mul_mod_idemp_r, I4, Z.mul_1_r by discriminate. reflexivity. }
  rewrite <- (Z.mod_small s q448), <- (Z.mod_small s' q448) by assumption. rewrite <- (F s), <- (F s').
  rewrite <- (Z.mul_mod_idemp_r 4), (Zminus_mod (2 * _)), <- (Z.mul_mod_idemp_r 2), E, (Z.mul_mod_idemp_r 2), <- Zminus_mod, Z.mul_mod_idemp_r by discriminate. reflexivity.
Qed.
Lemma signs_in : forall N, In (signs N) (vectors [true; false] 90).
Proof.
  intro N. assert (K : forall l, In (map (hidden N) l) (vectors [true; false] (length l))).
  { induction l as [ | x l IH ]; [ left; reflexivity | ]. cbn [map length vectors]. apply in_flat_map. exists (hidden N x). split; [ destruct (hidden N x); cbn [In]; tauto | apply in_map; exact IH ]. }
  exact (K places).
Qed.
Theorem same_addresses : forall s, tally (fun r => same_string (table_addresses r) (table_addresses s)) (below q448) <= 2 ^ 90.
Proof.
  intro s. assert (K : forall l : list Z, NoDup l -> (forall r, In r l -> 0 <= r < q448) -> tally (fun r => same_string (table_addresses r) (table_addresses s)) l <= 2 ^ 90).
  2:{ apply K; [ apply below_nodup | ]. intros r I. exact (proj1 (in_below _ _) I). }
  intros l ND HR. set (f := fun r => same_string (table_addresses r) (table_addresses s)).
  assert (E : tally f l = Z.of_nat (length (filter f l))). { clear. induction l as [ | x l IH ]; [ reflexivity | ]. cbn [tally filter]. rewrite IH. destruct (f x); cbn [length]; lia. }
  rewrite E. assert (Q : q448 < 2 ^ 450) by reflexivity.
  assert (V : Z.of_nat (length (vectors [true; false] 90)) = 2 ^ 90) by (rewrite vectors_count; reflexivity). rewrite <- V. apply inj_le.
  rewrite <- (map_length (fun r => signs (comb_number r)) (filter f l)). apply NoDup_incl_length; [ | intros x I; apply in_map_iff in I as (r & <- & _); apply signs_in ].
  apply nodup_map; [ | apply NoDup_filter; exact ND ]. intros r r' I I' S. apply filter_In in I as (I & F). apply filter_In in I' as (I' & F'). unfold f in F, F'. apply same_string_eq in F, F'.
  apply number_inj; [ exact (HR r I) | exact (HR r' I') | ]. assert (B : forall x, 0 <= comb_number x < 2 ^ 450). { intro x. unfold comb_number. pose proof (Z.mod_pos_bound ((x * ((q448 + 1) / 4) + 2 ^ 450 - 1) * ((q448 + 1) / 2)) q448 ltac:(reflexivity)). lia. }
  apply same_number; [ apply B | apply B | | exact S ]. unfold table_addresses in F, F'. congruence.
Qed.

(* the number is the sum of its parts *)
Lemma bit_sum : forall n N, 0 <= N < 2 ^ Z.of_nat n -> zsum (fun t => (N / 2 ^ t) mod 2 * 2 ^ t) (Z.of_nat n) = N.
Proof.
  assert (K : forall n N, zsum (fun t => (N / 2 ^ t) mod 2 * 2 ^ t) (Z.of_nat n) = N mod 2 ^ Z.of_nat n).
  { induction n as [ | n IH ]; intro N; [ change (Z.of_nat 0) with 0; rewrite Z.mod_1_r; reflexivity | ].
    rewrite Nat2Z.inj_succ, <- Z.add_1_r, zsum_app by lia. rewrite IH. replace (zsum (fun i => (N / 2 ^ (Z.of_nat n + i)) mod 2 * 2 ^ (Z.of_nat n + i)) 1) with ((N / 2 ^ Z.of_nat n) mod 2 * 2 ^ Z.of_nat n).
    - rewrite Z.pow_add_r by lia. rewrite Z.rem_mul_r by (apply Z.pow_nonzero || lia; lia). rewrite Z.pow_1_r. ring.
    - transitivity ((N / 2 ^ (Z.of_nat n + 0)) mod 2 * 2 ^ (Z.of_nat n + 0)); [ rewrite Z.add_0_r; reflexivity | ]. rewrite (zsum_ext _ (fun _ => (N / 2 ^ (Z.of_nat n + 0)) mod 2 * 2 ^ (Z.of_nat n + 0))), zsum_const by (try lia; intros i Hi; replace i with 0 by lia; reflexivity). ring. }
  intros n N R. rewrite K. apply Z.mod_small. exact R.
Qed.
Lemma five : forall g, zsum g 5 = g 0 + g 1 + g 2 + g 3 + g 4.
Proof. intro g. unfold zsum. change (Z.to_nat 5) with 5%nat. cbn [nsum]. change (Z.of_nat 0) with 0. change (Z.of_nat 1) with 1. change (Z.of_nat 2) with 2. change (Z.of_nat 3) with 3. change (Z.of_nat 4) with 4. ring. Qed.
Lemma eighteen : forall g, zsum g 18 = lsum g [17; 16; 15; 14; 13; 12; 11; 10; 9; 8; 7; 6; 5; 4; 3; 2; 1; 0].
Proof.
  intro g. replace 18 with (5 + (5 + (5 + 3))) by reflexivity. rewrite !zsum_app by lia. rewrite !five.
  assert (T : forall h, zsum h 3 = h 0 + h 1 + h 2). { intro h. unfold zsum. change (Z.to_nat 3) with 3%nat. cbn [nsum]. change (Z.of_nat 0) with 0. change (Z.of_nat 1) with 1. change (Z.of_nat 2) with 2. ring. }
  rewrite T. cbn [lsum]. cbn. ring.
Qed.
Lemma digit_bits : forall b0 b1 b2 b3 b4, 0 <= b0 < 2 -> 0 <= b1 < 2 -> 0 <= b2 < 2 -> 0 <= b3 < 2 -> 0 <= b4 < 2 -> let d := b0 + 2 * b1 + 4 * b2 + 8 * b3 + 16 * b4 in
  (d / 2 ^ 0) mod 2 = b0 /\ (d / 2 ^ 1) mod 2 = b1 /\ (d / 2 ^ 2) mod 2 = b2 /\ (d / 2 ^ 3) mod 2 = b3 /\ (d / 2 ^ 4) mod 2 = b4.
Proof.
  intros b0 b1 b2 b3 b4 H0 H1 H2 H3 H4 d. assert (C : forall b, 0 <= b < 2 -> b = 0 \/ b = 1) by (intros; lia). unfold d.
  destruct (C b0 H0) as [ -> | -> ], (C b1 H1) as [ -> | -> ], (C b2 H2) as [ -> | -> ], (C b3 H3) as [ -> | -> ], (C b4 H4) as [ -> | -> ]; repeat split; reflexivity.
Qed.
Lemma spread_digit : forall N i j, digit_part (comb_digit N i j) i j = zsum (fun k => (N / 2 ^ (i + 18 * (k + 5 * j))) mod 2 * 2 ^ (i + 18 * (k + 5 * j))) 5.
Proof.
  intros N i j. rewrite (zsum_ext _ (fun k => (N / 2 ^ (i + 18 * (5 * j + k))) mod 2 * 2 ^ (i + 18 * (5 * j + k)))) by (intros k _; rewrite (Z.add_comm k); reflexivity). rewrite five.
  unfold digit_part, comb_digit. pose proof (fun e => Z.mod_pos_bound (N / 2 ^ e) 2 ltac:(lia)) as B.
  destruct (digit_bits _ _ _ _ _ (B (i + 18 * (5 * j + 0))) (B (i + 18 * (5 * j + 1))) (B (i + 18 * (5 * j + 2))) (B (i + 18 * (5 * j + 3))) (B (i + 18 * (5 * j + 4)))) as (E0 & E1 & E2 & E3 & E4).
  rewrite E0, E1, E2, E3, E4. reflexivity.
Qed.
Lemma spread_sum : forall N, 0 <= N < 2 ^ 450 -> lsum (fun x => digit_part (comb_digit N (fst x) (snd x)) (fst x) (snd x)) reading_order = N.
Proof.
  intros N R. transitivity (zsum (fun i => (N / 2 ^ i) mod 2 * 2 ^ i) (Z.of_nat 450)); [ | exact (bit_sum 450 N R) ]. change (Z.of_nat 450) with (18 * 25). rewrite zsum_mul by lia. rewrite eighteen. unfold reading_order. rewrite lsum_flat. apply lsum_ext. intros i _.
  change 25 with (5 * 5). rewrite zsum_mul by lia. rewrite lsum_map. cbn [fst snd]. rewrite five.
  cbn [lsum]. rewrite !spread_digit, !five. ring.
Qed.
Lemma address_reading : forall N i j, In (digit_part (comb_digit N i j) i j) (readings (comb_address N i j) i j).
Proof.
  intros N i j. unfold readings, comb_address. destruct (comb_digit N i j <? 16); [ left | right; left ]; f_equal; ring.
Qed.
Lemma sum_in : forall (X : Type) (f : X -> Z) (c : X -> list Z) l, (forall x, In x l -> In (f x) (c x)) -> In (lsum f l) (all_sums (map c l)).
Proof.
  intros X f c. induction l as [ | x l IH ]; intro H; [ left; reflexivity | ]. cbn [lsum map all_sums]. apply in_flat_map. exists (f x). split; [ exact (H x (or_introl eq_refl)) | ].
  apply in_map. apply IH. intros y I. exact (H y (or_intror I)).
Qed.
Lemma sums_count : forall l, (forall c, In c l -> length c = 2%nat) -> Z.of_nat (length (all_sums l)) = 2 ^ Z.of_nat (length l).
Proof.
  induction l as [ | c l IH ]; intro H; [ reflexivity | ]. pose proof (H c (or_introl eq_refl)) as L. destruct c as [ | a [ | b [ | ] ] ]; try discriminate L.
  cbn [all_sums flat_map length]. rewrite app_nil_r, app_length, !map_length, Nat2Z.inj_add, IH, Nat2Z.inj_succ, Z.pow_succ_r by (lia || intros d I; exact (H d (or_intror I))). lia.
Qed.
Lemma addresses_order : forall N, comb_rounds N 18 = map (fun x => comb_address N (fst x) (snd x)) reading_order.
Proof. intro N. reflexivity. Qed.
Lemma combine_map : forall (X Y : Type) (f : X -> Y) l, combine (map f l) l = map (fun x => (f x, x)) l.
Proof. intros X Y f. induction l as [ | x l IH ]; [ reflexivity | ]. cbn [map combine]. rewrite IH. reflexivity. Qed.
Lemma parts_of : forall N, parts (comb_rounds N 18) = map (fun x => readings (comb_address N (fst x) (snd x)) (fst x) (snd x)) reading_order.
Proof. intro N. unfold parts. rewrite addresses_order, combine_map, map_map. reflexivity. Qed.
Lemma number_scalar : forall s, scalar_of_number (comb_number s) = s mod q448.
Proof.
  intro s. unfold scalar_of_number, comb_number. assert (I2 : 2 * ((q448 + 1) / 2) = 1 + 1 * q448) by reflexivity. assert (I4 : 4 * ((q448 + 1) / 4) = 1 + 1 * q448) by reflexivity.
  set (c4 := (q448 + 1) / 4) in *. set (c2 := (q448 + 1) / 2) in *. clearbody c4 c2. replace (s * c4 + 2 ^ 450 - 1) with (s * c4 + (2 ^ 450 - 1)) by ring.
  generalize (2 ^ 450 - 1). intro K. assert (Q : q448 <> 0) by discriminate. revert I2 I4 Q. generalize q448. intros q I2 I4 Q.
  rewrite (Z.mod_eq ((s * c4 + K) * c2) q Q). set (t := (s * c4 + K) * c2 / q). clearbody t.
  replace (4 * (2 * ((s * c4 + K) * c2 - q * t) - K)) with (s + (s + (s * (1 + 1 * q) + 4 * K) - 8 * t) * q).
  - apply Z.mod_add. exact Q.
  - replace (4 * (2 * ((s * c4 + K) * c2 - q * t) - K)) with ((s * (4 * c4) + 4 * K) * (2 * c2) - 8 * q * t - 4 * K) by ring. rewrite I2, I4. ring.
Qed.
Lemma number_range : forall x, 0 <= comb_number x < 2 ^ 450.
Proof. intro x. unfold comb_number. pose proof (Z.mod_pos_bound ((x * ((q448 + 1) / 4) + 2 ^ 450 - 1) * ((q448 + 1) / 2)) q448 ltac:(reflexivity)). assert (q448 < 2 ^ 450) by reflexivity. lia. Qed.
Theorem halves : forall s, let a := table_addresses s in
  Z.of_nat (length (first_half a)) = 2 ^ 45 /\ Z.of_nat (length (second_half a)) = 2 ^ 45 /\
  exists u v, In u (first_half a) /\ In v (second_half a) /\ scalar_of_number (u + v) = s mod q448.
Proof.
  intros s a. unfold first_half, second_half, a, table_addresses. rewrite parts_of. set (N := comb_number s). pose proof (number_range s : 0 <= N < 2 ^ 450) as R. pose proof (number_scalar s : scalar_of_number N = s mod q448) as E. clearbody N.
  set (c := fun x : Z * Z => readings (comb_address N (fst x) (snd x)) (fst x) (snd x)).
  assert (C : forall l' d, In d (map c l') -> length d = 2%nat) by (intros l' d I; apply in_map_iff in I as (x & <- & _); reflexivity).
  rewrite firstn_map, skipn_map. split; [ rewrite (sums_count _ (C _)); reflexivity | ]. split; [ rewrite (sums_count _ (C _)); reflexivity | ].
  set (f := fun x : Z * Z => digit_part (comb_digit N (fst x) (snd x)) (fst x) (snd x)).
  assert (F : forall l' (x : Z * Z), In x l' -> In (f x) (c x)) by (intros l' x _; apply address_reading).
  exists (lsum f (firstn 45 reading_order)), (lsum f (skipn 45 reading_order)).
  split; [ apply sum_in; exact (F _) | ]. split; [ apply sum_in; exact (F _) | ]. rewrite <- lsum_app, firstn_skipn. unfold f. rewrite (spread_sum N R). exact E.
Qed.
