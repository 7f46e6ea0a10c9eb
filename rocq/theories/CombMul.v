(* extended_point.rs: comb multiplication of the base point (precomputed_scalar_mul), given what the
   table entries stand for. *)
From Coq Require Import ZArith List Bool Lia.
From Verif Require Import SpecField SpecBytes SpecCurve SpecScalar Base Arith Bytes Constants32 BigNumber ScalarModel Niels CombTable ExtendedPoint.
From Verif Require Import LimbKara LimbOps LimbOps2 LimbSer Field FieldOps Edwards Isogeny PointOps ScalarProofs PointMul.
Import ListNotations.
Open Scope Z_scope.

Lemma ebase_on : on_curve ebase.
Proof.
  unfold ebase, on_curve. Transparent ecd. unfold ecd. change fone with (mkF 1).
  rewrite <- !mkF_mul, <- !mkF_add. apply mkF_eq. vm_compute. reflexivity.
Qed.
Opaque ecd.
Global Opaque ebase.

Definition sg (b : bool) : Z := if b then 1 else -1.
(* entry t of comb j *)
Definition cval (j t : Z) : Z :=
  sg (Z.testbit t 0) * 2 ^ (18 * (0 + 5 * j)) + sg (Z.testbit t 1) * 2 ^ (18 * (1 + 5 * j)) +
  sg (Z.testbit t 2) * 2 ^ (18 * (2 + 5 * j)) + sg (Z.testbit t 3) * 2 ^ (18 * (3 + 5 * j)) +
  2 ^ (18 * (4 + 5 * j)).
Definition comb_table_ok : Prop := forall j t, 0 <= j < 5 -> 0 <= t < 16 ->
  exists n, znth comb_base (16 * j + t) = Some n /\ isN n (emul (cval j t) ebase).

Definition hbit (h i j k : Z) : bool := Z.testbit h (i + 18 * (k + 5 * j)).
(* what comb j adds at step i *)
Definition cb (h i j : Z) : Z :=
  sg (hbit h i j 0) * 2 ^ (18 * (0 + 5 * j)) + sg (hbit h i j 1) * 2 ^ (18 * (1 + 5 * j)) +
  sg (hbit h i j 2) * 2 ^ (18 * (2 + 5 * j)) + sg (hbit h i j 3) * 2 ^ (18 * (3 + 5 * j)) +
  sg (hbit h i j 4) * 2 ^ (18 * (4 + 5 * j)).

Lemma b2z_land1 : forall w r, 0 <= r -> Z.land (Z.shiftr w r) 1 = Z.b2z (Z.testbit w r).
Proof.
  intros w r Hr. replace (Z.testbit w r) with (Z.odd (Z.shiftr w r)) by (rewrite <- Z.bit0_odd, Z.shiftr_spec by lia; f_equal).
  change 1 with (Z.ones 1). rewrite Z.land_ones by lia. rewrite Zmod_odd. destruct (Z.odd _); reflexivity.
Qed.
Lemma comb_tab_step : forall n k s i j tab, wf s -> v32 s < 2 ^ 446 -> 0 <= i < 18 -> 0 <= j < 5 -> 0 <= k < 5 ->
  comb_tab (S n) k s i j tab = comb_tab n (k + 1) s i j (Z.lor tab (shl32 (Z.b2z (hbit (v32 s) i j k)) k)).
Proof.
  intros n k s i j tab Hs Hv Hi Hj Hk. cbn [comb_tab].
  unfold DECAF_COMB_SPACING, DECAF_COMB_TEETH, SCALAR_BITS, WORD_BITS.
  replace (i + 18 * (k + j * 5)) with (i + 18 * (k + 5 * j)) by ring. unfold hbit.
  set (b := i + 18 * (k + 5 * j)). assert (Hb : 0 <= b < 450) by lia.
  destruct (Z.ltb_spec b 446) as [L|L].
  - assert (Hk' : 0 <= b / 32 < 14) by (split; [ apply Z.div_pos; lia | apply Z.div_lt_upper_bound; lia ]).
    destruct (wf_word s (b / 32) Hs Hk') as (w & Ew & Hw). rewrite Ew, !bind_Some. cbv beta.
    pose proof (Z.mod_pos_bound b 32 ltac:(lia)).
    rewrite b2z_land1 by lia. rewrite (v32_testbit s b w (proj2 Hs)); [ reflexivity | lia | rewrite (proj1 Hs); lia | exact Ew ].
  - rewrite bind_Some. cbv beta. pose proof (wf_range s Hs).
    assert (E : Z.testbit (v32 s) b = false).
    { rewrite <- (Z.mod_small (v32 s) (2 ^ 446)) by lia. apply Z.mod_pow2_bits_high. lia. }
    rewrite E. cbn [Z.b2z]. unfold shl32. rewrite Z.shiftl_0_l. change (wrap32 0) with 0. rewrite Z.lor_0_r. reflexivity.
Qed.
Lemma comb_sel : forall s i j, comb_table_ok -> wf s -> v32 s < 2 ^ 446 -> 0 <= i < 18 -> 0 <= j < 5 ->
  exists tab np n', comb_tab 5 0 s i j 0 = Some tab /\
   (let invert := Z.shiftr (as_i32 tab) (DECAF_COMB_TEETH - 1) - 1 in
    let tab' := Z.land (Z.lxor tab (wrap32 invert)) (2 ^ (DECAF_COMB_TEETH - 1) - 1) in
    znth comb_base (Z.shiftl j (DECAF_COMB_TEETH - 1) + tab') = Some np /\
    niels_conditional_negate np (wrap32 invert) = Some n') /\
   isN n' (emul (cb (v32 s) i j) ebase).
Proof.
  intros s i j HT Hs Hv Hi Hj.
  rewrite !comb_tab_step by (assumption || lia). cbn [comb_tab].
  change (0 + 1) with 1. change (1 + 1) with 2. change (2 + 1) with 3. change (3 + 1) with 4.
  unfold cb. set (b0 := hbit (v32 s) i j 0). set (b1 := hbit (v32 s) i j 1). set (b2 := hbit (v32 s) i j 2).
  set (b3 := hbit (v32 s) i j 3). set (b4 := hbit (v32 s) i j 4).
  set (tab := Z.lor _ _).
  set (t := Z.land (Z.lxor tab (wrap32 (Z.shiftr (as_i32 tab) (DECAF_COMB_TEETH - 1) - 1))) (2 ^ (DECAF_COMB_TEETH - 1) - 1)).
  assert (FT : (0 <= t < 16) /\ Z.testbit t 0 = Bool.eqb b0 b4 /\ Z.testbit t 1 = Bool.eqb b1 b4 /\
            Z.testbit t 2 = Bool.eqb b2 b4 /\ Z.testbit t 3 = Bool.eqb b3 b4 /\
            wrap32 (Z.shiftr (as_i32 tab) (DECAF_COMB_TEETH - 1) - 1) = mask (negb b4)).
  { unfold t, tab. clear. destruct b0, b1, b2, b3, b4; vm_compute; intuition congruence. }
  destruct FT as (Ht & T0 & T1 & T2 & T3 & EI).
  destruct (HT j t Hj Ht) as (np & Ep & Hp). exists tab, np.
  destruct (niels_negate_ok np (negb b4) _ Hp) as (n' & En & Hn'). exists n'.
  split; [ reflexivity | ]. split.
  - cbv zeta. fold t. rewrite EI. split; [ | exact En ].
    rewrite <- Ep. f_equal. rewrite Z.shiftl_mul_pow2 by (unfold DECAF_COMB_TEETH; lia).
    change (2 ^ (DECAF_COMB_TEETH - 1)) with 16. ring.
  - unfold cval in Hn'. rewrite T0, T1, T2, T3 in Hn'. clear - Hn'.
    destruct b4; cbn [negb] in Hn'.
    + replace (sg (eqb b0 true)) with (sg b0) in Hn' by (destruct b0; reflexivity).
      replace (sg (eqb b1 true)) with (sg b1) in Hn' by (destruct b1; reflexivity).
      replace (sg (eqb b2 true)) with (sg b2) in Hn' by (destruct b2; reflexivity).
      replace (sg (eqb b3 true)) with (sg b3) in Hn' by (destruct b3; reflexivity).
      change (sg true) with 1. rewrite Z.mul_1_l. exact Hn'.
    + rewrite <- emul_opp in Hn'. 
      replace (sg (eqb b0 false)) with (- sg b0) in Hn' by (destruct b0; reflexivity).
      replace (sg (eqb b1 false)) with (- sg b1) in Hn' by (destruct b1; reflexivity).
      replace (sg (eqb b2 false)) with (- sg b2) in Hn' by (destruct b2; reflexivity).
      replace (sg (eqb b3 false)) with (- sg b3) in Hn' by (destruct b3; reflexivity).
      change (sg false) with (-1).
      match type of Hn' with isN _ (emul ?a _) => match goal with |- isN _ (emul ?b _) => replace b with a; [ exact Hn' | ring ] end end.
Qed.

(* sums *)
Fixpoint zsum (n : nat) (f : Z -> Z) : Z :=
  match n with
  | O => 0
  | S n' => zsum n' f + f (Z.of_nat n')
  end.
Lemma zsum_ext : forall n f g, (forall i, 0 <= i < Z.of_nat n -> f i = g i) -> zsum n f = zsum n g.
Proof. induction n as [|n IH]; intros f g H; cbn [zsum]; [ reflexivity | ]. rewrite (IH f g), H by (intros; try apply H; lia). reflexivity. Qed.
Lemma zsum_lin : forall n c f g, zsum n (fun i => c * f i + g i) = c * zsum n f + zsum n g.
Proof. induction n as [|n IH]; intros; cbn [zsum]; [ ring | ]. rewrite IH. ring. Qed.

Lemma zsum_shift : forall m f, zsum (S m) f = f 0 + zsum m (fun k => f (k + 1)).
Proof.
  induction m as [|m IH]; intro f; [ cbn [zsum]; change (Z.of_nat 0) with 0; ring | ].
  change (zsum (S (S m)) f) with (zsum (S m) f + f (Z.of_nat (S m))). rewrite IH. cbn [zsum].
  replace (Z.of_nat m + 1) with (Z.of_nat (S m)) by lia. ring.
Qed.
Lemma comb_inner_ok : forall n j s i p c, comb_table_ok -> wf s -> v32 s < 2 ^ 446 -> 0 <= i < 18 ->
  j = 5 - Z.of_nat n -> (n < 5)%nat \/ (n = 5%nat /\ i < 17) ->
  (if n then isB (negb (i =? 0)) p (emul c ebase) else isP p (emul c ebase)) ->
  exists r, comb_inner n j s i p = Some r /\
    isB (negb (i =? 0)) r (emul (c + zsum n (fun k => cb (v32 s) i (k + j))) ebase).
Proof.
  induction n as [|n IH]; intros j s i p c HT Hs Hv Hi Hj Hn Hp.
  - exists p. split; [ reflexivity | ]. cbn [zsum]. rewrite Z.add_0_r. exact Hp.
  - cbn [comb_inner]. destruct (comb_sel s i j HT Hs Hv Hi ltac:(lia)) as (tab & np & n' & E1 & (E2 & E3) & H1).
    rewrite E1, bind_Some. cbv beta zeta. rewrite E2, bind_Some. cbv beta. rewrite E3, bind_Some. cbv beta.
    assert (C : negb (i =? DECAF_COMB_SPACING - 1) || negb (j =? 0) = true).
    { unfold DECAF_COMB_SPACING. destruct (Z.eqb_spec i (18 - 1)), (Z.eqb_spec j 0); cbn [negb orb]; try reflexivity; lia. }
    rewrite C. 
    destruct (add_niels_ok p n' ((j =? DECAF_COMB_NUMBER - 1) && negb (i =? 0)) _ _ Hp H1) as (p' & E4 & H4).
    rewrite E4, bind_Some. cbv beta.
    rewrite <- emul_add in H4 by exact ebase_on.
    assert (E5 : zsum (S n) (fun k => cb (v32 s) i (k + j)) = cb (v32 s) i j + zsum n (fun k => cb (v32 s) i (k + (j + 1)))).
    { clear. rewrite zsum_shift. rewrite Z.add_0_l. f_equal. apply zsum_ext. intros k _. f_equal. ring. }
    rewrite E5, Z.add_assoc.
    destruct (IH (j + 1) s i p' (c + cb (v32 s) i j) HT Hs Hv Hi ltac:(lia) ltac:(lia)) as (r & Er & Hr).
    { unfold DECAF_COMB_NUMBER in H4. destruct n as [|n].
      - destruct (Z.eqb_spec j (5 - 1)); [ exact H4 | lia ].
      - destruct (Z.eqb_spec j (5 - 1)); [ lia | ]. apply isB_false. exact H4. }
    exists r. split; [ exact Er | ]. exact Hr.
Qed.

(* the first column, i = 17, starts from the first entry *)
Lemma comb_first_ok : forall s p, comb_table_ok -> wf s -> v32 s < 2 ^ 446 ->
  exists r, comb_inner 5 0 s 17 p = Some r /\ isB true r (emul (zsum 5 (fun k => cb (v32 s) 17 k)) ebase).
Proof.
  intros s p HT Hs Hv.
  destruct (comb_sel s 17 0 HT Hs Hv ltac:(lia) ltac:(lia)) as (tab & np & n' & E1 & (E2 & E3) & H1).
  cbn [comb_inner]. rewrite E1, bind_Some. cbv beta zeta. rewrite E2, bind_Some. cbv beta. rewrite E3, bind_Some. cbv beta.
  change (negb (17 =? DECAF_COMB_SPACING - 1) || negb (0 =? 0)) with false. cbv iota.
  destruct (niels_to_extended_ok n' _ H1) as (p' & E4 & H4). rewrite E4, bind_Some. cbv beta.
  destruct (comb_inner_ok 4 1 s 17 p' _ HT Hs Hv ltac:(lia) ltac:(lia) ltac:(lia) H4) as (r & Er & Hr).
  exists r. split; [ exact Er | ].
  rewrite zsum_shift. exact Hr.
Qed.
(* column sums *)
Definition col (h i : Z) : Z := zsum 5 (fun k => cb h i k).
Definition slice18 (h m : Z) : Z := (h / 2 ^ (18 * m)) mod 2 ^ 18.
Definition colsum (h i : Z) : Z :=
  zsum 25 (fun m => 2 ^ (18 * m) * (2 * (slice18 h m / 2 ^ i) - (2 ^ (18 - i) - 1))).
Lemma col_eq : forall h i, 0 <= i -> col h i = zsum 25 (fun m => 2 ^ (18 * m) * sg (Z.testbit h (i + 18 * m))).
Proof.
  intros h i Hi. unfold col, cb, hbit. cbn [zsum].
  repeat match goal with |- context [Z.of_nat ?n] => let x := eval vm_compute in (Z.of_nat n) in change (Z.of_nat n) with x end.
  repeat match goal with |- context [18 * (?a + 5 * ?b)] => let x := eval vm_compute in (18 * (a + 5 * b)) in change (18 * (a + 5 * b)) with x end.
  repeat match goal with |- context [18 * Zpos ?a] => let x := eval vm_compute in (18 * Zpos a) in change (18 * Zpos a) with x end.
  change (18 * 0) with 0.
  repeat match goal with |- context [sg ?b] => generalize (sg b); intro end.
  ring.
Qed.
Lemma colsum_step : forall h i, 0 <= i < 18 -> colsum h i = 2 * colsum h (i + 1) + col h i.
Proof.
  intros h i Hi. rewrite col_eq by lia. unfold colsum. rewrite <- zsum_lin. apply zsum_ext. intros m Hm.
  assert (B : Z.testbit h (i + 18 * m) = Z.testbit (slice18 h m) i).
  { unfold slice18. rewrite Z.mod_pow2_bits_low, Z.div_pow2_bits by lia. reflexivity. }
  rewrite B. set (x := slice18 h m). 
  assert (D : x / 2 ^ i = 2 * (x / 2 ^ (i + 1)) + Z.b2z (Z.testbit x i)).
  { rewrite Z.testbit_spec' by lia. rewrite Z.pow_add_r by lia. rewrite <- Z.div_div by (try apply Z.pow_nonzero; lia).
    apply Z.div_mod. lia. }
  rewrite D. replace (18 - i) with (18 - (i + 1) + 1) by ring. rewrite (Z.pow_add_r 2 (18 - (i + 1)) 1) by lia.
  destruct (Z.testbit x i); cbn [sg Z.b2z]; ring.
Qed.
Lemma colsum_18 : forall h, colsum h 18 = 0.
Proof.
  intro h. unfold colsum. rewrite (zsum_ext 25 _ (fun _ => 0)); [ reflexivity | ].
  intros m Hm. unfold slice18. rewrite (Z.div_small (_ mod 2 ^ 18)) by (apply Z.mod_pos_bound; lia).
  change (18 - 18) with 0. change (2 ^ 0 - 1) with 0. ring.
Qed.
Lemma slice_sum : forall n h, zsum n (fun m => 2 ^ (18 * m) * (2 * (slice18 h m / 2 ^ 0) - (2 ^ (18 - 0) - 1))) =
  2 * (h mod 2 ^ (18 * Z.of_nat n)) - (2 ^ (18 * Z.of_nat n) - 1).
Proof.
  induction n as [|n IH]; intro h.
  - cbn [zsum]. change (2 ^ (18 * Z.of_nat 0)) with 1. rewrite Z.mod_1_r. reflexivity.
  - cbn [zsum]. rewrite IH. replace (18 * Z.of_nat (S n)) with (18 * Z.of_nat n + 18) by lia.
    rewrite Z.pow_add_r by lia. rewrite Z.rem_mul_r by (try apply Z.pow_nonzero; lia).
    unfold slice18. change (18 - 0) with 18. change (2 ^ 0) with 1. rewrite Z.div_1_r. ring.
Qed.
Lemma comb_outer_ok : forall n s p, comb_table_ok -> wf s -> v32 s < 2 ^ 446 -> (n < 18)%nat ->
  is3 p (emul (colsum (v32 s) (Z.of_nat n)) ebase) -> (n = 0%nat -> isP p (emul (colsum (v32 s) 0) ebase)) ->
  exists r, comb_outer n s p = Some r /\ isP r (emul (colsum (v32 s) 0) ebase).
Proof.
  induction n as [|n IH]; intros s p HT Hs Hv Hn Hp H0.
  - exists p. split; [ reflexivity | auto ].
  - cbn [comb_outer]. 
    assert (E : negb (Z.of_nat n =? DECAF_COMB_SPACING - 1) = true).
    { unfold DECAF_COMB_SPACING. destruct (Z.eqb_spec (Z.of_nat n) (18 - 1)); [ lia | reflexivity ]. }
    rewrite E. destruct (double_ok p false _ Hp) as (p2 & E2 & H2). rewrite E2, bind_Some. cbv beta.
    apply isB_false in H2. rewrite <- emul_add in H2 by exact ebase_on.
    destruct (comb_inner_ok 5 0 s (Z.of_nat n) p2 _ HT Hs Hv ltac:(lia) ltac:(lia) ltac:(lia) H2) as (p3 & E3 & H3).
    rewrite E3, bind_Some. cbv beta.
    assert (E4 : zsum 5 (fun k => cb (v32 s) (Z.of_nat n) (k + 0)) = col (v32 s) (Z.of_nat n)).
    { unfold col. apply zsum_ext. intros k _. f_equal. ring. }
    rewrite E4 in H3.
    assert (E5 : colsum (v32 s) (Z.of_nat (S n)) + colsum (v32 s) (Z.of_nat (S n)) + col (v32 s) (Z.of_nat n) = colsum (v32 s) (Z.of_nat n)).
    { rewrite (colsum_step _ (Z.of_nat n)) by lia. replace (Z.of_nat n + 1) with (Z.of_nat (S n)) by lia.
      generalize (colsum (v32 s) (Z.of_nat (S n))) (col (v32 s) (Z.of_nat n)). intros; ring. }
    apply (eq_ind _ (fun z => isB (negb (Z.of_nat n =? 0)) p3 (emul z ebase)) H3) in E5. clear H3. rename E5 into H3.
    apply IH; auto; [ lia | exact (proj1 H3) | ].
    intros ->. apply isB_false. exact H3.
Qed.
Lemma comb_outer_S : forall n s p, comb_outer (S n) s p =
  (p <- (if negb (Z.of_nat n =? DECAF_COMB_SPACING - 1) then double_internal p false else Some p) ;;
   p <- comb_inner 5 0 s (Z.of_nat n) p ;; comb_outer n s p).
Proof. reflexivity. Qed.
Lemma precomputed_scalar_mul_ok : forall s, comb_table_ok -> red s ->
  exists r, precomputed_scalar_mul s = Some r /\ isP r (emul (meff (v32 s)) ebase).
Proof.
  intros s HT Hs. unfold precomputed_scalar_mul.
  destruct (adjust_ok s Hs) as (t & Et & Rt & Vt). rewrite Et, bind_Some. cbv beta zeta.
  set (h := halve t) in *. 
  assert (Hv : v32 h < 2 ^ 446) by (pose proof q448_bounds; destruct Rt; lia).
  rewrite comb_outer_S. change (Z.of_nat 17) with 17. change (negb (17 =? DECAF_COMB_SPACING - 1)) with false.
  cbv iota. rewrite bind_Some. cbv beta.
  destruct (comb_first_ok h point_new HT (proj1 Rt) Hv) as (p1 & E1 & H1). rewrite E1, bind_Some. cbv beta.
  fold (col (v32 h) 17) in H1.
  assert (E2 : col (v32 h) 17 = colsum (v32 h) 17).
  { rewrite (colsum_step _ 17) by lia. change (17 + 1) with 18. rewrite colsum_18, Z.mul_0_r, Z.add_0_l. reflexivity. }
  apply (eq_ind _ (fun z => isB true p1 (emul z ebase)) H1) in E2. clear H1. rename E2 into H1.
  destruct (comb_outer_ok 17 h p1 HT (proj1 Rt) Hv ltac:(lia) (proj1 H1) ltac:(discriminate)) as (r & Er & Hr).
  exists r. split; [ exact Er | ].
  replace (meff (v32 s)) with (colsum (v32 h) 0); [ exact Hr | ].
  rewrite <- Vt. unfold colsum. rewrite slice_sum. change (18 * Z.of_nat 25) with 450.
  pose proof (wf_range h (proj1 Rt)).
  rewrite (Z.mod_small (v32 h)); [ reflexivity | ]. split; [ lia | ].
  apply (Z.lt_trans _ (2 ^ 448)); [ lia | reflexivity ].
Qed.
