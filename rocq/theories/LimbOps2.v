(* Multiplication by a small constant, selection, strong reduction and comparison. *)
From Coq Require Import ZArith List Bool Lia.
From Verif Require Import SpecField Base Arith Constants32 BigNumber LimbKara LimbMul LimbOps.
Import ListNotations.
Open Scope Z_scope.

Lemma mw_first : forall w x y, 0 <= w < 2 ^ 28 -> 0 <= x <= LOOSE ->
  wadd64 (wmul64 w x) (wmul64 0 y) = w * x.
Proof.
  intros w x y Hw Hx. unfold wadd64, wmul64. rewrite Z.mul_0_l, !wrap64_mod.
  change (0 mod 2 ^ 64) with 0. rewrite Z.add_0_r, Z.mod_mod by lia.
  apply Z.mod_small. unfold LOOSE in Hx. nia.
Qed.
Lemma mw_step : forall c w x y, 0 <= c <= 2 ^ 31 -> 0 <= w < 2 ^ 28 -> 0 <= x <= LOOSE ->
  wadd64 (wadd64 c (wmul64 w x)) (wmul64 0 y) = c + w * x.
Proof.
  intros c w x y Hc Hw Hx. unfold wadd64, wmul64. rewrite Z.mul_0_l, !wrap64_mod.
  change (0 mod 2 ^ 64) with 0. rewrite Z.add_0_r, !Z.add_mod_idemp_r, Z.mod_mod by lia.
  apply Z.mod_small. unfold LOOSE in Hx. nia.
Qed.
Lemma mw_carry : forall c w x, 0 <= c <= 2 ^ 31 -> 0 <= w < 2 ^ 28 -> 0 <= x <= LOOSE ->
  0 <= (c + w * x) / 2 ^ 28 <= 2 ^ 31.
Proof.
  intros c w x Hc Hw Hx. unfold LOOSE in Hx.
  split; [ apply Z.div_pos; nia | apply Z.div_le_upper_bound; nia ].
Qed.

(* multiplier below 2^28: the only ones used are 39081, 39082 and 78164 *)
Lemma mul_w_ok : forall a w, loose a -> 0 <= w < 2 ^ 28 ->
  exists r, mul_w a w = Some r /\ tight r /\ cong (ev r) (w * ev a).
Proof.
  intros [x0 x1 x2 x3 x4 x5 x6 x7 x8 x9 x10 x11 x12 x13 x14 x15] w. unfold loose, bn_le. intros (H0 & H1 & H2 & H3 & H4 & H5 & H6 & H7 & H8 & H9 & H10 & H11 & H12 & H13 & H14 & H15) Hw.
  cbv beta iota zeta delta [mul_w].
  replace (wrap32 (Z.shiftr w RADIX)) with 0.
  2:{ unfold RADIX. rewrite shr28, Z.div_small by lia. reflexivity. }
  replace (wrap32 (Z.land w RADIX_MASK)) with w.
  2:{ rewrite radix_mod, Z.mod_small, wrap32_small by lia. reflexivity. }
  rewrite (chk_u32_ok (x15 + x7)) by (unfold LOOSE in *; lia). cbn [bind].
  assert (RW : forall z, wrap32 (Z.land z RADIX_MASK) = z mod 2 ^ 28).
  { intro z. rewrite radix_mod. pose proof (mod28_bd z). apply wrap32_small. lia. }
  unfold RADIX. rewrite ?RW. rewrite ?shr28.
  rewrite (mw_first w x0 x15 Hw H0).
  pose proof (mw_carry 0 w x0 ltac:(lia) Hw H0) as Bu0. rewrite Z.add_0_l in Bu0.
  pose proof (mod28_bd (w * x0)) as Mu0. rewrite ?(Z.mod_eq (w * x0)) in * by discriminate. remember (w * x0 / 2 ^ 28) as u0 eqn:Eu0. clear Eu0.
  rewrite (mw_first w x8 (x15 + x7) Hw H8).
  pose proof (mw_carry 0 w x8 ltac:(lia) Hw H8) as Bv0. rewrite Z.add_0_l in Bv0.
  pose proof (mod28_bd (w * x8)) as Mv0. rewrite ?(Z.mod_eq (w * x8)) in * by discriminate. remember (w * x8 / 2 ^ 28) as v0 eqn:Ev0. clear Ev0.
  rewrite (mw_step u0 w x1 x0 Bu0 Hw H1).
  pose proof (mw_carry u0 w x1 Bu0 Hw H1) as Bu1.
  pose proof (mod28_bd (u0 + w * x1)) as Mu1.
  rewrite ?(Z.mod_eq (u0 + w * x1)) in * by discriminate. remember ((u0 + w * x1) / 2 ^ 28) as u1 eqn:Eu1. clear Eu1.
  rewrite (mw_step v0 w x9 x8 Bv0 Hw H9).
  pose proof (mw_carry v0 w x9 Bv0 Hw H9) as Bv1.
  pose proof (mod28_bd (v0 + w * x9)) as Mv1.
  rewrite ?(Z.mod_eq (v0 + w * x9)) in * by discriminate. remember ((v0 + w * x9) / 2 ^ 28) as v1 eqn:Ev1. clear Ev1.
  rewrite (mw_step u1 w x2 x1 Bu1 Hw H2).
  pose proof (mw_carry u1 w x2 Bu1 Hw H2) as Bu2.
  pose proof (mod28_bd (u1 + w * x2)) as Mu2.
  rewrite ?(Z.mod_eq (u1 + w * x2)) in * by discriminate. remember ((u1 + w * x2) / 2 ^ 28) as u2 eqn:Eu2. clear Eu2.
  rewrite (mw_step v1 w x10 x9 Bv1 Hw H10).
  pose proof (mw_carry v1 w x10 Bv1 Hw H10) as Bv2.
  pose proof (mod28_bd (v1 + w * x10)) as Mv2.
  rewrite ?(Z.mod_eq (v1 + w * x10)) in * by discriminate. remember ((v1 + w * x10) / 2 ^ 28) as v2 eqn:Ev2. clear Ev2.
  rewrite (mw_step u2 w x3 x2 Bu2 Hw H3).
  pose proof (mw_carry u2 w x3 Bu2 Hw H3) as Bu3.
  pose proof (mod28_bd (u2 + w * x3)) as Mu3.
  rewrite ?(Z.mod_eq (u2 + w * x3)) in * by discriminate. remember ((u2 + w * x3) / 2 ^ 28) as u3 eqn:Eu3. clear Eu3.
  rewrite (mw_step v2 w x11 x10 Bv2 Hw H11).
  pose proof (mw_carry v2 w x11 Bv2 Hw H11) as Bv3.
  pose proof (mod28_bd (v2 + w * x11)) as Mv3.
  rewrite ?(Z.mod_eq (v2 + w * x11)) in * by discriminate. remember ((v2 + w * x11) / 2 ^ 28) as v3 eqn:Ev3. clear Ev3.
  rewrite (mw_step u3 w x4 x3 Bu3 Hw H4).
  pose proof (mw_carry u3 w x4 Bu3 Hw H4) as Bu4.
  pose proof (mod28_bd (u3 + w * x4)) as Mu4.
  rewrite ?(Z.mod_eq (u3 + w * x4)) in * by discriminate. remember ((u3 + w * x4) / 2 ^ 28) as u4 eqn:Eu4. clear Eu4.
  rewrite (mw_step v3 w x12 x11 Bv3 Hw H12).
  pose proof (mw_carry v3 w x12 Bv3 Hw H12) as Bv4.
  pose proof (mod28_bd (v3 + w * x12)) as Mv4.
  rewrite ?(Z.mod_eq (v3 + w * x12)) in * by discriminate. remember ((v3 + w * x12) / 2 ^ 28) as v4 eqn:Ev4. clear Ev4.
  rewrite (mw_step u4 w x5 x4 Bu4 Hw H5).
  pose proof (mw_carry u4 w x5 Bu4 Hw H5) as Bu5.
  pose proof (mod28_bd (u4 + w * x5)) as Mu5.
  rewrite ?(Z.mod_eq (u4 + w * x5)) in * by discriminate. remember ((u4 + w * x5) / 2 ^ 28) as u5 eqn:Eu5. clear Eu5.
  rewrite (mw_step v4 w x13 x12 Bv4 Hw H13).
  pose proof (mw_carry v4 w x13 Bv4 Hw H13) as Bv5.
  pose proof (mod28_bd (v4 + w * x13)) as Mv5.
  rewrite ?(Z.mod_eq (v4 + w * x13)) in * by discriminate. remember ((v4 + w * x13) / 2 ^ 28) as v5 eqn:Ev5. clear Ev5.
  rewrite (mw_step u5 w x6 x5 Bu5 Hw H6).
  pose proof (mw_carry u5 w x6 Bu5 Hw H6) as Bu6.
  pose proof (mod28_bd (u5 + w * x6)) as Mu6.
  rewrite ?(Z.mod_eq (u5 + w * x6)) in * by discriminate. remember ((u5 + w * x6) / 2 ^ 28) as u6 eqn:Eu6. clear Eu6.
  rewrite (mw_step v5 w x14 x13 Bv5 Hw H14).
  pose proof (mw_carry v5 w x14 Bv5 Hw H14) as Bv6.
  pose proof (mod28_bd (v5 + w * x14)) as Mv6.
  rewrite ?(Z.mod_eq (v5 + w * x14)) in * by discriminate. remember ((v5 + w * x14) / 2 ^ 28) as v6 eqn:Ev6. clear Ev6.
  rewrite (mw_step u6 w x7 x6 Bu6 Hw H7).
  pose proof (mw_carry u6 w x7 Bu6 Hw H7) as Bu7.
  pose proof (mod28_bd (u6 + w * x7)) as Mu7.
  rewrite ?(Z.mod_eq (u6 + w * x7)) in * by discriminate. remember ((u6 + w * x7) / 2 ^ 28) as u7 eqn:Eu7. clear Eu7.
  rewrite (mw_step v6 w x15 x14 Bv6 Hw H15).
  pose proof (mw_carry v6 w x15 Bv6 Hw H15) as Bv7.
  pose proof (mod28_bd (v6 + w * x15)) as Mv7.
  rewrite ?(Z.mod_eq (v6 + w * x15)) in * by discriminate. remember ((v6 + w * x15) / 2 ^ 28) as v7 eqn:Ev7. clear Ev7.

  set (n0 := w * x0 - 2 ^ 28 * u0) in *. set (n8 := w * x8 - 2 ^ 28 * v0) in *.
  set (n1 := u0 + w * x1 - 2 ^ 28 * u1) in *. set (n9 := v0 + w * x9 - 2 ^ 28 * v1) in *.
  rewrite (chk_u64_ok (v7 + n8)) by lia. cbn [bind].
  rewrite (chk_u64_ok (u7 + (v7 + n8))) by lia. cbn [bind].
  rewrite (chk_u64_ok (v7 + n0)) by lia. cbn [bind]. rewrite ?RW, ?shr28.
  eexists; split; [ reflexivity | ].
  assert (F0 : 0 <= (u7 + (v7 + n8)) / 2 ^ 28 <= 2 ^ 9)
    by (split; [ apply Z.div_pos; lia | apply Z.div_le_upper_bound; lia ]).
  assert (F1 : 0 <= (v7 + n0) / 2 ^ 28 <= 2 ^ 9)
    by (split; [ apply Z.div_pos; lia | apply Z.div_le_upper_bound; lia ]).
  rewrite (wrap32_small ((u7 + (v7 + n8)) / 2 ^ 28)) by lia.
  rewrite (wrap32_small ((v7 + n0) / 2 ^ 28)) by lia.
  unfold wadd32. rewrite !wrap32_small by lia.
  split.
  - pose proof (mod28_bd (u7 + (v7 + n8))). pose proof (mod28_bd (v7 + n0)).
    unfold tight, bn_le, TIGHT. repeat split; lia.
  - apply (cong_sub _ _ v7). unfold ev, evr.
    change p448 with ((2 ^ 28) ^ 16 - (2 ^ 28) ^ 8 - 1).
    rewrite (Z.mod_eq (u7 + (v7 + n8))), (Z.mod_eq (v7 + n0)) by discriminate.
    generalize ((u7 + (v7 + n8)) / 2 ^ 28) ((v7 + n0) / 2 ^ 28). intros g0 g1.
    unfold n0, n1, n8, n9. generalize (2 ^ 28). intro r. ring.
Qed.

Lemma zero_tight : tight BIG_ZERO.
Proof. unfold tight, bn_le, BIG_ZERO, TIGHT. repeat split; lia. Qed.
Lemma one_tight : tight BIG_ONE.
Proof. unfold tight, bn_le, BIG_ONE, TIGHT. repeat split; lia. Qed.
Lemma ev_zero : ev BIG_ZERO = 0.
Proof. reflexivity. Qed.
Lemma ev_one : ev BIG_ONE = 1.
Proof. reflexivity. Qed.

Lemma cong_trans : forall x y z, cong x y -> cong y z -> cong x z.
Proof. unfold cong. intros. congruence. Qed.
Lemma cong_neg : forall x y, cong x y -> cong (- x) (- y).
Proof.
  unfold cong. intros x y H. rewrite <- (Z.sub_0_l x), <- (Z.sub_0_l y).
  rewrite Zminus_mod, H, <- Zminus_mod. reflexivity.
Qed.

Lemma mul_signed_ok : forall a c, loose a -> - 2 ^ 28 < c < 0 ->
  exists r, mul_with_signed_curve_constant a c = Some r /\ tight r /\ cong (ev r) (c * ev a).
Proof.
  intros a c Ha Hc. unfold mul_with_signed_curve_constant.
  destruct (c >? 0) eqn:E; [ apply Z.gtb_lt in E; lia | ].
  rewrite chk_i64_ok by lia. cbn [bind].
  rewrite wrap64_small by lia.
  destruct (mul_w_ok a (- c) Ha ltac:(lia)) as (r & H1 & H2 & H3).
  rewrite H1. cbn [bind].
  destruct (sub_ok BIG_ZERO r (tight_loose _ zero_tight) H2) as (s & H4 & H5 & H6).
  exists s. split; [ exact H4 | ]. split; [ exact H5 | ].
  rewrite ev_zero, Z.sub_0_l in H6. apply cong_trans with (1 := H6).
  replace (c * ev a) with (- (- c * ev a)) by ring. apply cong_neg. exact H3.
Qed.

(* masks: 0 or all ones *)
Definition mask (b : bool) : Z := if b then 0xffffffff else 0.

Lemma land_mask : forall x b, 0 <= x < 2 ^ 32 -> Z.land x (mask b) = if b then x else 0.
Proof.
  intros x [] H; unfold mask; [ | apply Z.land_0_r ].
  change (Z.land x 0xffffffff) with (wrap32 x). apply wrap32_small. exact H.
Qed.
Lemma lxor_range : forall n x y, 0 <= n -> 0 <= x < 2 ^ n -> 0 <= y < 2 ^ n -> 0 <= Z.lxor x y < 2 ^ n.
Proof.
  intros n x y Hn Hx Hy. split; [ apply Z.lxor_nonneg; lia | ].
  destruct (Z.eq_dec (Z.lxor x y) 0) as [->|Hne]; [ apply Z.pow_pos_nonneg; lia | ].
  apply Z.log2_lt_pow2.
  - assert (0 <= Z.lxor x y) by (apply Z.lxor_nonneg; lia). lia.
  - eapply Z.le_lt_trans; [ apply Z.log2_lxor; lia | ].
    assert (L : forall z, 0 <= z < 2 ^ n -> Z.log2 z < n \/ n = 0).
    { intros z Hz. destruct (Z.eq_dec n 0); [ right; assumption | left ].
      destruct (Z.eq_dec z 0) as [->|]; [ simpl; lia | ]. apply Z.log2_lt_pow2; lia. }
    destruct (L x Hx) as [|H0]; [ destruct (L y Hy) as [|H0]; [ lia | ] | ];
    subst n; change (2 ^ 0) with 1 in *; exfalso; apply Hne;
    replace x with 0 by lia; replace y with 0 by lia; reflexivity.
Qed.
Lemma land_lxor_mask : forall x y b, 0 <= x < 2 ^ 32 -> 0 <= y < 2 ^ 32 ->
  Z.land (Z.lxor x y) (mask b) = if b then Z.lxor x y else 0.
Proof. intros x y b Hx Hy. apply land_mask. apply lxor_range; lia. Qed.
Lemma bn_le_u32 : forall M a, M < 2 ^ 32 -> bn_le M a -> bn_le (2 ^ 32 - 1) a.
Proof. intros M a H. apply bn_le_mono. lia. Qed.

Lemma swap_limb : forall n x b, 0 <= n <= 2 ^ 32 - 1 -> 0 <= x <= 2 ^ 32 - 1 ->
  Z.lxor n (Z.land (Z.lxor x n) (mask b)) = (if b then x else n) /\
  Z.lxor x (Z.land (Z.lxor x n) (mask b)) = (if b then n else x).
Proof.
  intros n x b Hn Hx. rewrite land_lxor_mask by lia. destruct b.
  - rewrite (Z.lxor_comm x n) at 1. rewrite <- !Z.lxor_assoc, !Z.lxor_nilpotent, !Z.lxor_0_l. split; reflexivity.
  - rewrite !Z.lxor_0_r. split; reflexivity.
Qed.

Lemma conditional_swap_ok : forall n x b, bn_le (2 ^ 32 - 1) n -> bn_le (2 ^ 32 - 1) x ->
  conditional_swap n x (mask b) = if b then (x, n) else (n, x).
Proof.
  intros [x0 x1 x2 x3 x4 x5 x6 x7 x8 x9 x10 x11 x12 x13 x14 x15] [y0 y1 y2 y3 y4 y5 y6 y7 y8 y9 y10 y11 y12 y13 y14 y15] b. unfold bn_le. intros (H0 & H1 & H2 & H3 & H4 & H5 & H6 & H7 & H8 & H9 & H10 & H11 & H12 & H13 & H14 & H15) (K0 & K1 & K2 & K3 & K4 & K5 & K6 & K7 & K8 & K9 & K10 & K11 & K12 & K13 & K14 & K15).
  cbv beta iota zeta delta [conditional_swap bn_map2].
  destruct (swap_limb x0 y0 b H0 K0) as (-> & ->).
  destruct (swap_limb x1 y1 b H1 K1) as (-> & ->).
  destruct (swap_limb x2 y2 b H2 K2) as (-> & ->).
  destruct (swap_limb x3 y3 b H3 K3) as (-> & ->).
  destruct (swap_limb x4 y4 b H4 K4) as (-> & ->).
  destruct (swap_limb x5 y5 b H5 K5) as (-> & ->).
  destruct (swap_limb x6 y6 b H6 K6) as (-> & ->).
  destruct (swap_limb x7 y7 b H7 K7) as (-> & ->).
  destruct (swap_limb x8 y8 b H8 K8) as (-> & ->).
  destruct (swap_limb x9 y9 b H9 K9) as (-> & ->).
  destruct (swap_limb x10 y10 b H10 K10) as (-> & ->).
  destruct (swap_limb x11 y11 b H11 K11) as (-> & ->).
  destruct (swap_limb x12 y12 b H12 K12) as (-> & ->).
  destruct (swap_limb x13 y13 b H13 K13) as (-> & ->).
  destruct (swap_limb x14 y14 b H14 K14) as (-> & ->).
  destruct (swap_limb x15 y15 b H15 K15) as (-> & ->).
  destruct b; reflexivity.
Qed.

Lemma constant_time_select_ok : forall x y b, bn_le (2 ^ 32 - 1) x -> bn_le (2 ^ 32 - 1) y ->
  constant_time_select x y (mask b) = if b then x else y.
Proof.
  intros x y b Hx Hy. unfold constant_time_select. rewrite conditional_swap_ok by assumption.
  destruct b; reflexivity.
Qed.
Lemma tight_max : forall a, tight a -> bn_le (2 ^ 32 - 1) a.
Proof. intro a. apply bn_le_mono. unfold TIGHT. lia. Qed.
Lemma conditional_negate_ok : forall a b, tight a ->
  exists r, conditional_negate a (mask b) = Some r /\ tight r /\
    cong (ev r) (if b then - ev a else ev a).
Proof.
  intros a b Ha. unfold conditional_negate.
  destruct (neg_ok a Ha) as (m & H1 & H2 & H3). rewrite H1. cbn [bind].
  eexists; split; [ reflexivity | ].
  rewrite constant_time_select_ok by (apply tight_max; assumption).
  destruct b; split; auto. reflexivity.
Qed.

Lemma not_mask : forall b, not32 (mask b) = mask (negb b).
Proof. intros []; reflexivity. Qed.
Lemma select_limb : forall x y b, 0 <= x <= 2 ^ 32 - 1 -> 0 <= y <= 2 ^ 32 - 1 ->
  Z.lor (Z.land x (not32 (mask b))) (Z.land y (mask b)) = if b then y else x.
Proof.
  intros x y b Hx Hy. rewrite not_mask, !land_mask by lia.
  destruct b; simpl negb; cbv iota; [ apply Z.lor_0_l | apply Z.lor_0_r ].
Qed.
Lemma decaf_select_ok : forall x y b, bn_le (2 ^ 32 - 1) x -> bn_le (2 ^ 32 - 1) y ->
  decaf_const_time_select x y (mask b) = if b then y else x.
Proof.
  intros [x0 x1 x2 x3 x4 x5 x6 x7 x8 x9 x10 x11 x12 x13 x14 x15] [y0 y1 y2 y3 y4 y5 y6 y7 y8 y9 y10 y11 y12 y13 y14 y15] b. unfold bn_le. intros (H0 & H1 & H2 & H3 & H4 & H5 & H6 & H7 & H8 & H9 & H10 & H11 & H12 & H13 & H14 & H15) (K0 & K1 & K2 & K3 & K4 & K5 & K6 & K7 & K8 & K9 & K10 & K11 & K12 & K13 & K14 & K15).
  cbv beta iota zeta delta [decaf_const_time_select bn_map2].
  rewrite (select_limb x0 y0 b H0 K0).
  rewrite (select_limb x1 y1 b H1 K1).
  rewrite (select_limb x2 y2 b H2 K2).
  rewrite (select_limb x3 y3 b H3 K3).
  rewrite (select_limb x4 y4 b H4 K4).
  rewrite (select_limb x5 y5 b H5 K5).
  rewrite (select_limb x6 y6 b H6 K6).
  rewrite (select_limb x7 y7 b H7 K7).
  rewrite (select_limb x8 y8 b H8 K8).
  rewrite (select_limb x9 y9 b H9 K9).
  rewrite (select_limb x10 y10 b H10 K10).
  rewrite (select_limb x11 y11 b H11 K11).
  rewrite (select_limb x12 y12 b H12 K12).
  rewrite (select_limb x13 y13 b H13 K13).
  rewrite (select_limb x14 y14 b H14 K14).
  rewrite (select_limb x15 y15 b H15 K15).
  destruct b; reflexivity.
Qed.
Lemma decaf_cond_negate_ok : forall a b, tight a ->
  exists r, decaf_cond_negate a (mask b) = Some r /\ tight r /\
    cong (ev r) (if b then - ev a else ev a).
Proof.
  intros a b Ha. unfold decaf_cond_negate.
  destruct (sub_ok BIG_ZERO a (tight_loose _ zero_tight) Ha) as (m & H1 & H2 & H3).
  rewrite H1. cbn [bind]. eexists; split; [ reflexivity | ].
  rewrite decaf_select_ok by (apply tight_max; assumption).
  rewrite ev_zero, Z.sub_0_l in H3.
  destruct b; split; auto. reflexivity.
Qed.

Lemma is_zero_mask_ok : forall n, 0 <= n < 2 ^ 32 -> is_zero_mask n = mask (n =? 0).
Proof.
  intros n H. unfold is_zero_mask, WORD_BITS. rewrite shr32. unfold wsub64.
  destruct (Z.eqb_spec n 0) as [->|Hn]; [ reflexivity | ].
  rewrite wrap64_small by lia. rewrite Z.div_small by lia. reflexivity.
Qed.
