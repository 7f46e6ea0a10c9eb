(* The functions of bignumber.rs as operations of the field Fp. *)
From Coq Require Import ZArith List Bool Lia.
From Verif Require Import SpecField Base Arith Constants32 BigNumber LimbKara LimbMul LimbOps LimbOps2 LimbSer LimbDeser.
From Verif Require Import SpecBytes Bytes Field.
Import ListNotations.
Open Scope Z_scope.
Open Scope F_scope.

(* field element represented by a limb vector *)
Definition F (a : bn) : Fp := mkF (ev a).

Lemma F_cong : forall a z, cong (ev a) z -> F a = mkF z.
Proof. intros a z H. unfold F. apply mkF_eq. exact H. Qed.
Lemma fval_F : forall a, fval (F a) = (ev a mod p448)%Z.
Proof. intro a. unfold F. apply fval_mkF. Qed.

(* a computation that does not panic and yields a tight vector with the given field value *)
Definition yields (o : option bn) (v : Fp) : Prop := exists r, o = Some r /\ tight r /\ F r = v.

Lemma mul_F : forall a b, loose a -> loose b -> tight (mul a b) /\ F (mul a b) = F a * F b.
Proof.
  intros a b Ha Hb. destruct (mul_ok a b Ha Hb) as (H1 & H2). split; [ exact H1 | ].
  rewrite (F_cong _ _ H2). apply mkF_mul.
Qed.
Lemma square_F : forall a, loose a -> tight (square a) /\ F (square a) = F a * F a.
Proof.
  intros a Ha. destruct (square_ok a Ha) as (H1 & H2). split; [ exact H1 | ].
  rewrite (F_cong _ _ H2). apply mkF_mul.
Qed.
Lemma add_raw_F : forall a b, tight a -> tight b -> loose (add_raw a b) /\ F (add_raw a b) = F a + F b.
Proof.
  intros a b Ha Hb. destruct (add_raw_ok a b Ha Hb) as (H1 & H2). split; [ exact H1 | ].
  unfold F. rewrite H2. apply mkF_add.
Qed.
Lemma add_F : forall a b, loose a -> loose b -> tight (add a b) /\ F (add a b) = F a + F b.
Proof.
  intros a b Ha Hb. destruct (add_ok a b Ha Hb) as (H1 & H2). split; [ exact H1 | ].
  rewrite (F_cong _ _ H2). apply mkF_add.
Qed.
Lemma sub_F : forall a b, loose a -> tight b -> yields (sub a b) (F a - F b).
Proof.
  intros a b Ha Hb. destruct (sub_ok a b Ha Hb) as (r & H1 & H2 & H3).
  exists r. split; [ exact H1 | ]. split; [ exact H2 | ]. rewrite (F_cong _ _ H3). apply mkF_sub.
Qed.
Lemma mul_w_F : forall a w, loose a -> (0 <= w < 2 ^ 28)%Z -> yields (mul_w a w) (mkF w * F a).
Proof.
  intros a w Ha Hw. destruct (mul_w_ok a w Ha Hw) as (r & H1 & H2 & H3).
  exists r. split; [ exact H1 | ]. split; [ exact H2 | ]. rewrite (F_cong _ _ H3). apply mkF_mul.
Qed.
Lemma mul_signed_F : forall a c, loose a -> (- 2 ^ 28 < c < 0)%Z ->
  yields (mul_with_signed_curve_constant a c) (mkF c * F a).
Proof.
  intros a c Ha Hc. destruct (mul_signed_ok a c Ha Hc) as (r & H1 & H2 & H3).
  exists r. split; [ exact H1 | ]. split; [ exact H2 | ]. rewrite (F_cong _ _ H3). apply mkF_mul.
Qed.
Lemma conditional_negate_F : forall a b, tight a ->
  yields (conditional_negate a (mask b)) (if b then - F a else F a).
Proof.
  intros a b Ha. destruct (conditional_negate_ok a b Ha) as (r & H1 & H2 & H3).
  exists r. split; [ exact H1 | ]. split; [ exact H2 | ]. rewrite (F_cong _ _ H3).
  destruct b; [ apply mkF_opp | reflexivity ].
Qed.
Lemma decaf_cond_negate_F : forall a b, tight a ->
  yields (decaf_cond_negate a (mask b)) (if b then - F a else F a).
Proof.
  intros a b Ha. destruct (decaf_cond_negate_ok a b Ha) as (r & H1 & H2 & H3).
  exists r. split; [ exact H1 | ]. split; [ exact H2 | ]. rewrite (F_cong _ _ H3).
  destruct b; [ apply mkF_opp | reflexivity ].
Qed.
Lemma F_zero : F BIG_ZERO = 0.
Proof. unfold F. rewrite ev_zero. reflexivity. Qed.
Lemma F_one : F BIG_ONE = 1.
Proof. unfold F. rewrite ev_one. reflexivity. Qed.
Lemma low_bit_F : forall a, tight a -> low_bit a = Some (mask (Z.odd (fval (F a)))).
Proof. intros a Ha. rewrite fval_F. apply low_bit_ok. apply tight_u32. exact Ha. Qed.
Lemma serialize_F : forall a, tight a -> dsa_like_serialize a = Some (le_bytes 56 (fval (F a))).
Proof. intros a Ha. rewrite fval_F. apply dsa_like_serialize_ok. apply tight_u32. exact Ha. Qed.

(* what decaf_equal tests: the difference vanishes in its low 420 bits *)
Definition low420 (x : Fp) : bool := (fval x mod 2 ^ 420 =? 0)%Z.
Lemma decaf_equal_F : forall a b, loose a -> tight b -> decaf_equal a b = Some (mask (low420 (F a - F b))).
Proof.
  intros a b Ha Hb. rewrite (decaf_equal_ok a b Ha Hb). f_equal. f_equal.
  unfold same_low420, low420. rewrite fval_fsub, !fval_F. rewrite <- Zminus_mod. reflexivity.
Qed.
Lemma low420_zero : low420 0 = true.
Proof. unfold low420. rewrite fval_fzero. reflexivity. Qed.

Lemma sub_x_bias_F : forall a b amt, loose a -> loose b -> (3 <= amt <= 4)%Z ->
  yields (sub_x_bias a b amt) (F a - F b).
Proof.
  intros a b amt Ha Hb H1.
  destruct (sub_x_bias_ok a b amt LOOSE) as (r & K1 & K2 & K3); auto; [ lia | unfold LOOSE; lia | ].
  exists r. split; [ exact K1 | ]. split; [ exact K2 | ]. rewrite (F_cong _ _ K3). apply mkF_sub.
Qed.

(* powers *)
Lemma pow2_succ : forall k, (0 <= k)%Z -> Z.to_pos (2 ^ (k + 2)) = (4 * Z.to_pos (2 ^ k))%positive.
Proof.
  intros k Hk. rewrite Z.pow_add_r by lia. rewrite Z2Pos.inj_mul; [ | apply Z.pow_pos_nonneg; lia | lia ].
  rewrite Pos.mul_comm. reflexivity.
Qed.
Lemma fpow_4 : forall x, fpow x 4 = x * x * (x * x).
Proof. reflexivity. Qed.
Lemma square_n_loop_F : forall fuel n y, tight n -> (0 <= y <= 2 * Z.of_nat fuel)%Z -> (y <= 1000)%Z ->
  Z.even y = true -> yields (square_n_loop fuel n y) (fpow (F n) (Z.to_pos (2 ^ y))).
Proof.
  induction fuel as [|fuel IH]; intros n y Hn Hy Hy2 He.
  - replace y with 0%Z by lia. exists n. cbn [square_n_loop]. change (0 >? 0)%Z with false. cbv iota.
    change (Z.to_pos (2 ^ 0)) with 1%positive. rewrite fpow_1. auto.
  - cbn [square_n_loop]. destruct (Z.gtb_spec y 0).
    + destruct (Z.eq_dec y 1) as [->|]; [ discriminate He | ].
      rewrite chk_usize_ok by lia. cbn [bind].
      destruct (square_F n (tight_loose _ Hn)) as (A1 & A2).
      destruct (square_F (square n) (tight_loose _ A1)) as (B1 & B2).
      destruct (IH (square (square n)) (y - 2)%Z) as (r & H1 & H2 & H3); auto; try lia.
      { rewrite Z.even_sub, He. reflexivity. }
      exists r. split; [ exact H1 | ]. split; [ exact H2 | ]. rewrite H3, B2, A2.
      rewrite <- fpow_4, fpow_mul, <- pow2_succ by lia. do 3 f_equal. lia.
    + replace y with 0%Z by lia. exists n. change (Z.to_pos (2 ^ 0)) with 1%positive. rewrite fpow_1. auto.
Qed.
Lemma square_n_F : forall x y, tight x -> (1 <= y <= 400)%Z ->
  yields (square_n x y) (fpow (F x) (Z.to_pos (2 ^ y))).
Proof.
  intros x y Hx Hy. unfold square_n.
  destruct (square_F x (tight_loose _ Hx)) as (A1 & A2).
  destruct (Z.odd y) eqn:O.
  - cbv zeta. rewrite chk_usize_ok by lia. cbn [bind].
    destruct (square_n_loop_F 200 (square x) (y - 1)) as (r & H1 & H2 & H3);
      [ exact A1 | lia | lia | rewrite Z.even_sub, <- Z.negb_odd, O; reflexivity | ].
    exists r. split; [ exact H1 | ]. split; [ exact H2 | ]. rewrite H3, A2, <- fpow_2, fpow_mul. f_equal.
    replace y with (1 + (y - 1))%Z at 2 by lia. rewrite Z.pow_add_r by lia.
    rewrite Z2Pos.inj_mul; [ reflexivity | lia | apply Z.pow_pos_nonneg; lia ].
  - destruct (square_F (square x) (tight_loose _ A1)) as (B1 & B2).
    assert (y <> 1)%Z by (intros ->; discriminate).
    cbv zeta. rewrite chk_usize_ok by lia. cbn [bind].
    destruct (square_n_loop_F 200 (square (square x)) (y - 2)) as (r & H1 & H2 & H3);
      [ exact B1 | lia | lia | rewrite Z.even_sub, <- Z.negb_odd, O; reflexivity | ].
    exists r. split; [ exact H1 | ]. split; [ exact H2 | ]. rewrite H3, B2, A2.
    rewrite <- fpow_4, fpow_mul, <- pow2_succ by lia. do 3 f_equal. lia.
Qed.

(* symbolic execution of a chain of multiplications: every value is a power of the input *)
Definition powof (x : Fp) (a : bn) (e : positive) : Prop := tight a /\ F a = fpow x e.
Lemma powof_mul : forall x a b e f, powof x a e -> powof x b f -> powof x (mul a b) (e + f).
Proof.
  intros x a b e f (A1 & A2) (B1 & B2).
  destruct (mul_F a b (tight_loose _ A1) (tight_loose _ B1)) as (M1 & M2). split; [ exact M1 | ].
  rewrite M2, A2, B2, fpow_add. reflexivity.
Qed.
Lemma powof_square : forall x a e, powof x a e -> powof x (square a) (2 * e).
Proof.
  intros x a e (A1 & A2). destruct (square_F a (tight_loose _ A1)) as (M1 & M2). split; [ exact M1 | ].
  rewrite M2, A2, <- fpow_add. f_equal. lia.
Qed.
Lemma powof_square_n : forall x a e n, powof x a e -> (1 <= n <= 400)%Z ->
  exists r, square_n a n = Some r /\ powof x r (e * Z.to_pos (2 ^ n)).
Proof.
  intros x a e n (A1 & A2) Hn. destruct (square_n_F a n A1 Hn) as (r & H1 & H2 & H3).
  exists r. split; [ exact H1 | ]. split; [ exact H2 | ]. rewrite H3, A2. apply fpow_mul.
Qed.

Definition ISR_EXP : positive := Z.to_pos ((p448 - 3) / 4).
Lemma powof_mul' : forall x a b e f g, powof x a e -> powof x b f -> (e + f)%positive = g ->
  powof x (mul a b) g.
Proof. intros x a b e f g Ha Hb <-. apply powof_mul; assumption. Qed.
Lemma powof_square' : forall x a e g, powof x a e -> (2 * e)%positive = g -> powof x (square a) g.
Proof. intros x a e g Ha <-. apply powof_square; assumption. Qed.
Lemma powof_square_n' : forall x a e n g, powof x a e -> (1 <= n <= 400)%Z ->
  (e * Z.to_pos (2 ^ n))%positive = g -> exists r, square_n a n = Some r /\ powof x r g.
Proof. intros x a e n g Ha Hn <-. apply powof_square_n; assumption. Qed.
Lemma isr_pow : forall x, tight x -> yields (isr x) (fpow (F x) ISR_EXP).
Proof.
  intros x Hx. assert (Qx : powof (F x) x 1) by (split; [ exact Hx | symmetry; apply fpow_1 ]).
  unfold isr. cbv zeta. unfold yields. generalize dependent (F x). intros y Qx.
  pose proof (powof_square' _ _ _ 2 Qx eq_refl) as Qv1. revert Qv1. generalize (square x). intros v1 Qv1.
  pose proof (powof_mul' _ _ _ _ _ 3 Qx Qv1 eq_refl) as Qv2. revert Qv2. generalize (mul x v1). intros v2 Qv2.
  pose proof (powof_square' _ _ _ 6 Qv2 eq_refl) as Qv3. revert Qv3. generalize (square v2). intros v3 Qv3.
  pose proof (powof_mul' _ _ _ _ _ 7 Qx Qv3 eq_refl) as Qv4. revert Qv4. generalize (mul x v3). intros v4 Qv4.
  destruct (powof_square_n' _ _ _ 3 56 Qv4 ltac:(lia) eq_refl) as (v5 & E & Qv5). rewrite E, bind_Some. clear E. cbv beta.
  pose proof (powof_mul' _ _ _ _ _ 63 Qv4 Qv5 eq_refl) as Qv6. revert Qv6. generalize (mul v4 v5). intros v6 Qv6.
  destruct (powof_square_n' _ _ _ 3 504 Qv6 ltac:(lia) eq_refl) as (v7 & E & Qv7). rewrite E, bind_Some. clear E. cbv beta.
  pose proof (powof_mul' _ _ _ _ _ 511 Qv4 Qv7 eq_refl) as Qv8. revert Qv8. generalize (mul v4 v7). intros v8 Qv8.
  destruct (powof_square_n' _ _ _ 9 261632 Qv8 ltac:(lia) eq_refl) as (v9 & E & Qv9). rewrite E, bind_Some. clear E. cbv beta.
  pose proof (powof_mul' _ _ _ _ _ 262143 Qv8 Qv9 eq_refl) as Qv10. revert Qv10. generalize (mul v8 v9). intros v10 Qv10.
  pose proof (powof_square' _ _ _ 524286 Qv10 eq_refl) as Qv11. revert Qv11. generalize (square v10). intros v11 Qv11.
  pose proof (powof_mul' _ _ _ _ _ 524287 Qx Qv11 eq_refl) as Qv12. revert Qv12. generalize (mul x v11). intros v12 Qv12.
  destruct (powof_square_n' _ _ _ 18 137438691328 Qv12 ltac:(lia) eq_refl) as (v13 & E & Qv13). rewrite E, bind_Some. clear E. cbv beta.
  pose proof (powof_mul' _ _ _ _ _ 137438953471 Qv10 Qv13 eq_refl) as Qv14. revert Qv14. generalize (mul v10 v13). intros v14 Qv14.
  destruct (powof_square_n' _ _ _ 37 18889465931341141901312 Qv14 ltac:(lia) eq_refl) as (v15 & E & Qv15). rewrite E, bind_Some. clear E. cbv beta.
  pose proof (powof_mul' _ _ _ _ _ 18889465931478580854783 Qv14 Qv15 eq_refl) as Qv16. revert Qv16. generalize (mul v14 v15). intros v16 Qv16.
  destruct (powof_square_n' _ _ _ 37 2596148429267413814265110725656576 Qv16 ltac:(lia) eq_refl) as (v17 & E & Qv17). rewrite E, bind_Some. clear E. cbv beta.
  pose proof (powof_mul' _ _ _ _ _ 2596148429267413814265248164610047 Qv14 Qv17 eq_refl) as Qv18. revert Qv18. generalize (mul v14 v17). intros v18 Qv18.
  destruct (powof_square_n' _ _ _ 111 6739986666787659948666753771754905072260856838221328855027737952256 Qv18 ltac:(lia) eq_refl) as (v19 & E & Qv19). rewrite E, bind_Some. clear E. cbv beta.
  pose proof (powof_mul' _ _ _ _ _ 6739986666787659948666753771754907668409286105635143120275902562303 Qv18 Qv19 eq_refl) as Qv20. revert Qv20. generalize (mul v18 v19). intros v20 Qv20.
  pose proof (powof_square' _ _ _ 13479973333575319897333507543509815336818572211270286240551805124606 Qv20 eq_refl) as Qv21. revert Qv21. generalize (square v20). intros v21 Qv21.
  pose proof (powof_mul' _ _ _ _ _ 13479973333575319897333507543509815336818572211270286240551805124607 Qx Qv21 eq_refl) as Qv22. revert Qv22. generalize (mul x v21). intros v22 Qv22.
  destruct (powof_square_n' _ _ _ 223 181709681073901722637330951972001133588410340171829515070372549795146342055015905511650429170897381574853811829355274197143098602029056 Qv22 ltac:(lia) eq_refl) as (v23 & E & Qv23). rewrite E, bind_Some. clear E. cbv beta.
  pose proof (powof_mul' _ _ _ _ _ 181709681073901722637330951972001133588410340171829515070372549795153082041682693171599095924669136482522221115460909340263374504591359 Qv20 Qv23 eq_refl) as Qv24. revert Qv24. generalize (mul v20 v23). intros v24 Qv24.
  exists v24. split; [ reflexivity | ].
  replace ISR_EXP with 181709681073901722637330951972001133588410340171829515070372549795153082041682693171599095924669136482522221115460909340263374504591359%positive by reflexivity. exact Qv24.
Qed.

(* isr: r^2 x = 1 for nonzero squares, -1 for non-squares, 0 for 0 *)
Lemma isr_exp_twice : (ISR_EXP + ISR_EXP + 1 = HALFP)%positive.
Proof. reflexivity. Qed.
Lemma isr_square : forall x, fpow x ISR_EXP * fpow x ISR_EXP * x = fpow x HALFP.
Proof. intro x. rewrite <- isr_exp_twice, !fpow_add, fpow_1. reflexivity. Qed.
Lemma invert_F : forall x, tight x -> yields (invert x) (finv (F x)).
Proof.
  intros x Hx. unfold invert. cbv zeta.
  destruct (square_F x (tight_loose _ Hx)) as (A1 & A2).
  destruct (isr_pow (square x) A1) as (t & H1 & H2 & H3). rewrite H1. cbn [bind].
  destruct (square_F t (tight_loose _ H2)) as (B1 & B2).
  destruct (mul_F (square t) x (tight_loose _ B1) (tight_loose _ Hx)) as (C1 & C2).
  eexists. split; [ reflexivity | ]. split; [ exact C1 | ].
  rewrite C2, B2, H3, A2, finv_def. rewrite <- (fpow_2 (F x)), <- fpow_add, fpow_mul.
  rewrite <- (fpow_1 (F x)) at 2. rewrite <- fpow_add. f_equal.
Qed.
