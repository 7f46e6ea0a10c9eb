(* Release builds agree with debug builds wherever the debug build does not trap. *)
From Coq Require Import ZArith List Bool Lia.
From Verif Require Import Base Constants32 Karatsuba32 KaratsubaSquare32 BigNumber ScalarModel Niels CombTable WnafTable Errors.
From Verif Require Import ExtendedPoint Eddsa Goldilocks Lib Release.
Import ListNotations.
Open Scope Z_scope.

Definition agrees {A : Type} (a b : option A) : Prop := forall r, a = Some r -> b = Some r.
Lemma agrees_refl : forall A (a : option A), agrees a a.
Proof. intros A a r H. exact H. Qed.
Lemma agrees_none : forall A (b : option A), agrees None b.
Proof. intros A b r H. discriminate H. Qed.
Lemma agrees_bind : forall A B (a b : option A) (f g : A -> option B), agrees a b -> (forall x, agrees (f x) (g x)) -> agrees (bind a f) (bind b g).
Proof. intros A B [x|] b f g H K r E; [ | discriminate E ]. rewrite (H x eq_refl). exact (K x r E). Qed.
Lemma agrees_bind_same : forall A B (a : option A) (f g : A -> option B), (forall x, agrees (f x) (g x)) -> agrees (bind a f) (bind a g).
Proof. intros A B a f g K. exact (agrees_bind _ _ _ _ _ _ (agrees_refl _ a) K). Qed.
Lemma agrees_let : forall A B (v : A) (f g : A -> option B), (forall x, agrees (f x) (g x)) -> agrees (let x := v in f x) (let x := v in g x).
Proof. intros A B v f g H. exact (H v). Qed.
Lemma chk_some : forall lo hi z r, chk lo hi z = Some r -> r = z /\ lo <= z < hi.
Proof.
  intros lo hi z r H. unfold chk in H. destruct (Z.leb_spec lo z); destruct (Z.ltb_spec z hi); cbn [andb] in H; try discriminate H.
  injection H as <-. lia.
Qed.
Lemma wrap64_mod : forall z, wrap64 z = z mod 2 ^ 64.
Proof. intro z. unfold wrap64. change 0xffffffffffffffff with (Z.ones 64). apply Z.land_ones. discriminate. Qed.
Lemma wrap32_mod : forall z, wrap32 z = z mod 2 ^ 32.
Proof. intro z. unfold wrap32. change 0xffffffff with (Z.ones 32). apply Z.land_ones. discriminate. Qed.
Lemma chk_u32_ag : forall z, agrees (chk_u32 z) (r_chk_u32 z).
Proof. intros z r H. apply chk_some in H as (-> & H). unfold r_chk_u32. rewrite wrap32_mod, Z.mod_small by exact H. reflexivity. Qed.
Lemma chk_u64_ag : forall z, agrees (chk_u64 z) (r_chk_u64 z).
Proof. intros z r H. apply chk_some in H as (-> & H). unfold r_chk_u64. rewrite wrap64_mod, Z.mod_small by exact H. reflexivity. Qed.
Lemma chk_usize_ag : forall z, agrees (chk_usize z) (r_chk_usize z).
Proof. exact chk_u64_ag. Qed.
Lemma chk_i64_ag : forall z, agrees (chk_i64 z) (r_chk_i64 z).
Proof.
  intros z r H. apply chk_some in H as (-> & H). unfold r_chk_i64. rewrite wrap64_mod. unfold as_i64.
  destruct (Z.ltb_spec z 0) as [ N | N ].
  - replace (z mod 2 ^ 64) with (z + 2 ^ 64) by (rewrite <- (Z.mod_small (z + 2 ^ 64) (2 ^ 64)) by lia; rewrite <- (Z.mod_add z 1) by discriminate; reflexivity).
    destruct (Z.ltb_spec (z + 2 ^ 64) (2 ^ 63)); [ lia | ]. f_equal. lia.
  - rewrite Z.mod_small by lia. destruct (Z.ltb_spec z (2 ^ 63)); [ reflexivity | lia ].
Qed.
Create HintDb rel.
#[export] Hint Resolve chk_u32_ag chk_u64_ag chk_usize_ag chk_i64_ag : rel.
Ltac rel := repeat (cbv beta; lazymatch goal with
  | |- agrees ?a ?a => exact (agrees_refl _ a)
  | |- agrees None _ => exact (agrees_none _ _)
  | |- agrees (let x := ?v in @?f x) (let y := ?v in @?g y) => refine (agrees_let _ _ v f g _); intro
  | |- agrees (bind ?a _) (bind ?a _) => apply agrees_bind_same; intro
  | |- agrees (bind _ _) (bind _ _) => apply agrees_bind; [ | intro ]
  | |- agrees (match ?x with _ => _ end) (match ?x with _ => _ end) => destruct x
  | |- agrees _ _ => solve [ auto with rel ]
  end).
Lemma bias_ag : forall n b, agrees (bias n b) (r_bias n b).
Proof. intros. cbv beta delta [bias r_bias]. rel. Qed.
#[export] Hint Resolve bias_ag : rel.
Lemma constant_time_greater_or_equal_p_ag : forall n, agrees (constant_time_greater_or_equal_p n) (r_constant_time_greater_or_equal_p n).
Proof. intros. cbv beta delta [constant_time_greater_or_equal_p r_constant_time_greater_or_equal_p]. rel. Qed.
#[export] Hint Resolve constant_time_greater_or_equal_p_ag : rel.
Lemma neg_ag : forall x, agrees (neg x) (r_neg x).
Proof. intros. cbv beta delta [neg r_neg]. rel. Qed.
#[export] Hint Resolve neg_ag : rel.
Lemma sub_ag : forall x y, agrees (sub x y) (r_sub x y).
Proof. intros. cbv beta delta [sub r_sub]. rel. Qed.
#[export] Hint Resolve sub_ag : rel.
Lemma sub_x_bias_ag : forall x y amt, agrees (sub_x_bias x y amt) (r_sub_x_bias x y amt).
Proof. intros. cbv beta delta [sub_x_bias r_sub_x_bias]. rel. Qed.
#[export] Hint Resolve sub_x_bias_ag : rel.
Lemma square_n_loop_ag : forall fuel n y, agrees (square_n_loop fuel n y) (r_square_n_loop fuel n y).
Proof. induction fuel as [|k0 IH]; intros; cbn [square_n_loop r_square_n_loop]; rel. Qed.
#[export] Hint Resolve square_n_loop_ag : rel.
Lemma square_n_ag : forall x y, agrees (square_n x y) (r_square_n x y).
Proof. intros. cbv beta delta [square_n r_square_n]. rel. Qed.
#[export] Hint Resolve square_n_ag : rel.
Lemma isr_ag : forall x, agrees (isr x) (r_isr x).
Proof. intros. cbv beta delta [isr r_isr]. rel. Qed.
#[export] Hint Resolve isr_ag : rel.
Lemma invert_ag : forall x, agrees (invert x) (r_invert x).
Proof. intros. cbv beta delta [invert r_invert]. rel. Qed.
#[export] Hint Resolve invert_ag : rel.
Lemma mul_w_ag : forall x w, agrees (mul_w x w) (r_mul_w x w).
Proof. intros. cbv beta delta [mul_w r_mul_w]. rel. Qed.
#[export] Hint Resolve mul_w_ag : rel.
Lemma mul_with_signed_curve_constant_ag : forall x c, agrees (mul_with_signed_curve_constant x c) (r_mul_with_signed_curve_constant x c).
Proof. intros. cbv beta delta [mul_with_signed_curve_constant r_mul_with_signed_curve_constant]. rel. Qed.
#[export] Hint Resolve mul_with_signed_curve_constant_ag : rel.
Lemma conditional_negate_ag : forall n negate, agrees (conditional_negate n negate) (r_conditional_negate n negate).
Proof. intros. cbv beta delta [conditional_negate r_conditional_negate]. rel. Qed.
#[export] Hint Resolve conditional_negate_ag : rel.
Lemma sub_chain_ag : forall n scarry ms, agrees (sub_chain scarry n ms) (r_sub_chain scarry n ms).
Proof. induction n as [|h0 t0 IH]; intros; cbn [sub_chain r_sub_chain]; rel. Qed.
#[export] Hint Resolve sub_chain_ag : rel.
Lemma add_chain_ag : forall n carry ms, agrees (add_chain carry n ms) (r_add_chain carry n ms).
Proof. induction n as [|h0 t0 IH]; intros; cbn [add_chain r_add_chain]; rel. Qed.
#[export] Hint Resolve add_chain_ag : rel.
Lemma strong_reduce_ag : forall n, agrees (strong_reduce n) (r_strong_reduce n).
Proof. intros. cbv beta delta [strong_reduce r_strong_reduce]. rel. Qed.
#[export] Hint Resolve strong_reduce_ag : rel.
Lemma low_bit_ag : forall x, agrees (low_bit x) (r_low_bit x).
Proof. intros. cbv beta delta [low_bit r_low_bit]. rel. Qed.
#[export] Hint Resolve low_bit_ag : rel.
Lemma decaf_equal_ag : forall n x, agrees (decaf_equal n x) (r_decaf_equal n x).
Proof. intros. cbv beta delta [decaf_equal r_decaf_equal]. rel. Qed.
#[export] Hint Resolve decaf_equal_ag : rel.
Lemma decaf_cond_negate_ag : forall n neg, agrees (decaf_cond_negate n neg) (r_decaf_cond_negate n neg).
Proof. intros. cbv beta delta [decaf_cond_negate r_decaf_cond_negate]. rel. Qed.
#[export] Hint Resolve decaf_cond_negate_ag : rel.
Lemma deserialize_return_mask_ag : forall inp, agrees (deserialize_return_mask inp) (r_deserialize_return_mask inp).
Proof. intros. cbv beta delta [deserialize_return_mask r_deserialize_return_mask]. rel. Qed.
#[export] Hint Resolve deserialize_return_mask_ag : rel.
Lemma deserialize_ag : forall inp, agrees (deserialize inp) (r_deserialize inp).
Proof. intros. cbv beta delta [deserialize r_deserialize]. rel. Qed.
#[export] Hint Resolve deserialize_ag : rel.
Lemma must_deserialize_ag : forall inp, agrees (must_deserialize inp) (r_must_deserialize inp).
Proof. intros. cbv beta delta [must_deserialize r_must_deserialize]. rel. Qed.
#[export] Hint Resolve must_deserialize_ag : rel.
Lemma dsa_loop_ag : forall ms i input mask fill j buffer scarry, agrees (dsa_loop ms i input mask fill j buffer scarry) (r_dsa_loop ms i input mask fill j buffer scarry).
Proof. induction ms as [|h0 t0 IH]; intros; cbn [dsa_loop r_dsa_loop]; rel. Qed.
#[export] Hint Resolve dsa_loop_ag : rel.
Lemma dsa_like_deserialize_ag : forall input mask, agrees (dsa_like_deserialize input mask) (r_dsa_like_deserialize input mask).
Proof. intros. cbv beta delta [dsa_like_deserialize r_dsa_like_deserialize]. rel. Qed.
#[export] Hint Resolve dsa_like_deserialize_ag : rel.
Lemma ser_loop_ag : forall k x fill buffer, agrees (ser_loop k x fill buffer) (r_ser_loop k x fill buffer).
Proof. induction k as [|k0 IH]; intros; cbn [ser_loop r_ser_loop]; rel. Qed.
#[export] Hint Resolve ser_loop_ag : rel.
Lemma dsa_like_serialize_ag : forall n, agrees (dsa_like_serialize n) (r_dsa_like_serialize n).
Proof. intros. cbv beta delta [dsa_like_serialize r_dsa_like_serialize]. rel. Qed.
#[export] Hint Resolve dsa_like_serialize_ag : rel.
Lemma sub_loop_ag : forall m chain s, agrees (sub_loop chain m s) (r_sub_loop chain m s).
Proof. induction m as [|h0 t0 IH]; intros; cbn [sub_loop r_sub_loop]; rel. Qed.
#[export] Hint Resolve sub_loop_ag : rel.
Lemma addback_loop_ag : forall r chain borrow qs, agrees (addback_loop chain borrow r qs) (r_addback_loop chain borrow r qs).
Proof. induction r as [|h0 t0 IH]; intros; cbn [addback_loop r_addback_loop]; rel. Qed.
#[export] Hint Resolve addback_loop_ag : rel.
Lemma sub_extra_ag : forall minuend subtrahend carry, agrees (sub_extra minuend subtrahend carry) (r_sub_extra minuend subtrahend carry).
Proof. intros. cbv beta delta [sub_extra r_sub_extra]. rel. Qed.
#[export] Hint Resolve sub_extra_ag : rel.
Lemma add_loop_ag : forall a chain b, agrees (add_loop chain a b) (r_add_loop chain a b).
Proof. induction a as [|h0 t0 IH]; intros; cbn [add_loop r_add_loop]; rel. Qed.
#[export] Hint Resolve add_loop_ag : rel.
Lemma sadd_ag : forall a b, agrees (sadd a b) (r_sadd a b).
Proof. intros. cbv beta delta [sadd r_sadd]. rel. Qed.
#[export] Hint Resolve sadd_ag : rel.
Lemma ssub_ag : forall a b, agrees (ssub a b) (r_ssub a b).
Proof. intros. cbv beta delta [ssub r_ssub]. rel. Qed.
#[export] Hint Resolve ssub_ag : rel.
Lemma montgomery_multiply_ag : forall x y, agrees (montgomery_multiply x y) (r_montgomery_multiply x y).
Proof. intros. cbv beta delta [montgomery_multiply r_montgomery_multiply]. rel. Qed.
#[export] Hint Resolve montgomery_multiply_ag : rel.
Lemma smul_ag : forall x y, agrees (smul x y) (r_smul x y).
Proof. intros. cbv beta delta [smul r_smul]. rel. Qed.
#[export] Hint Resolve smul_ag : rel.
Lemma decode_accum_ag : forall s accum qs, agrees (decode_accum accum s qs) (r_decode_accum accum s qs).
Proof. induction s as [|h0 t0 IH]; intros; cbn [decode_accum r_decode_accum]; rel. Qed.
#[export] Hint Resolve decode_accum_ag : rel.
Lemma decode_ag : forall b, agrees (decode b) (r_decode b).
Proof. intros. cbv beta delta [decode r_decode]. rel. Qed.
#[export] Hint Resolve decode_ag : rel.
Lemma long_loop_ag : forall fuel b size res, agrees (long_loop fuel b size res) (r_long_loop fuel b size res).
Proof. induction fuel as [|k0 IH]; intros; cbn [long_loop r_long_loop]; rel. Qed.
#[export] Hint Resolve long_loop_ag : rel.
Lemma decode_long_ag : forall b, agrees (decode_long b) (r_decode_long b).
Proof. intros. cbv beta delta [decode_long r_decode_long]. rel. Qed.
#[export] Hint Resolve decode_long_ag : rel.
Lemma pniels_to_extended_ag : forall n, agrees (pniels_to_extended n) (r_pniels_to_extended n).
Proof. intros. cbv beta delta [pniels_to_extended r_pniels_to_extended]. rel. Qed.
#[export] Hint Resolve pniels_to_extended_ag : rel.
Lemma double_internal_ag : forall p before_double, agrees (double_internal p before_double) (r_double_internal p before_double).
Proof. intros. cbv beta delta [double_internal r_double_internal]. rel. Qed.
#[export] Hint Resolve double_internal_ag : rel.
Lemma mod_equal_ag : forall p1 p2, agrees (mod_equal p1 p2) (r_mod_equal p1 p2).
Proof. intros. cbv beta delta [mod_equal r_mod_equal]. rel. Qed.
#[export] Hint Resolve mod_equal_ag : rel.
Lemma add_niels_to_extended_ag : forall p np before_double, agrees (add_niels_to_extended p np before_double) (r_add_niels_to_extended p np before_double).
Proof. intros. cbv beta delta [add_niels_to_extended r_add_niels_to_extended]. rel. Qed.
#[export] Hint Resolve add_niels_to_extended_ag : rel.
Lemma sub_niels_from_extended_point_ag : forall p np before_double, agrees (sub_niels_from_extended_point p np before_double) (r_sub_niels_from_extended_point p np before_double).
Proof. intros. cbv beta delta [sub_niels_from_extended_point r_sub_niels_from_extended_point]. rel. Qed.
#[export] Hint Resolve sub_niels_from_extended_point_ag : rel.
Lemma add_projected_niels_to_extended_ag : forall p np before_double, agrees (add_projected_niels_to_extended p np before_double) (r_add_projected_niels_to_extended p np before_double).
Proof. intros. cbv beta delta [add_projected_niels_to_extended r_add_projected_niels_to_extended]. rel. Qed.
#[export] Hint Resolve add_projected_niels_to_extended_ag : rel.
Lemma sub_projected_niels_from_extended_point_ag : forall p np before_double, agrees (sub_projected_niels_from_extended_point p np before_double) (r_sub_projected_niels_from_extended_point p np before_double).
Proof. intros. cbv beta delta [sub_projected_niels_from_extended_point r_sub_projected_niels_from_extended_point]. rel. Qed.
#[export] Hint Resolve sub_projected_niels_from_extended_point_ag : rel.
Lemma eddsa_like_encode_ag : forall p, agrees (eddsa_like_encode p) (r_eddsa_like_encode p).
Proof. intros. cbv beta delta [eddsa_like_encode r_eddsa_like_encode]. rel. Qed.
#[export] Hint Resolve eddsa_like_encode_ag : rel.
Lemma is_on_curve_ag : forall p, agrees (is_on_curve p) (r_is_on_curve p).
Proof. intros. cbv beta delta [is_on_curve r_is_on_curve]. rel. Qed.
#[export] Hint Resolve is_on_curve_ag : rel.
Lemma to_projected_niels_ag : forall p, agrees (to_projected_niels p) (r_to_projected_niels p).
Proof. intros. cbv beta delta [to_projected_niels r_to_projected_niels]. rel. Qed.
#[export] Hint Resolve to_projected_niels_ag : rel.
Lemma window_loop_ag : forall n p_original step, agrees (window_loop n p_original step) (r_window_loop n p_original step).
Proof. induction n as [|k0 IH]; intros; cbn [window_loop r_window_loop]; rel. Qed.
#[export] Hint Resolve window_loop_ag : rel.
Lemma prepare_fixed_window_ag : forall p, agrees (prepare_fixed_window p) (r_prepare_fixed_window p).
Proof. intros. cbv beta delta [prepare_fixed_window r_prepare_fixed_window]. rel. Qed.
#[export] Hint Resolve prepare_fixed_window_ag : rel.
Lemma niels_conditional_negate_ag : forall n neg, agrees (niels_conditional_negate n neg) (r_niels_conditional_negate n neg).
Proof. intros. cbv beta delta [niels_conditional_negate r_niels_conditional_negate]. rel. Qed.
#[export] Hint Resolve niels_conditional_negate_ag : rel.
Lemma niels_to_extended_ag : forall n, agrees (niels_to_extended n) (r_niels_to_extended n).
Proof. intros. cbv beta delta [niels_to_extended r_niels_to_extended]. rel. Qed.
#[export] Hint Resolve niels_to_extended_ag : rel.
Lemma double5_ag : forall p, agrees (double5 p) (r_double5 p).
Proof. intros. cbv beta delta [double5 r_double5]. rel. Qed.
#[export] Hint Resolve double5_ag : rel.
Lemma scalar_mul_loop_ag : forall fuel s multiples i out, agrees (scalar_mul_loop fuel s multiples i out) (r_scalar_mul_loop fuel s multiples i out).
Proof. induction fuel as [|k0 IH]; intros; cbn [scalar_mul_loop r_scalar_mul_loop]; rel. Qed.
#[export] Hint Resolve scalar_mul_loop_ag : rel.
Lemma point_scalar_mul_ag : forall p s, agrees (point_scalar_mul p s) (r_point_scalar_mul p s).
Proof. intros. cbv beta delta [point_scalar_mul r_point_scalar_mul]. rel. Qed.
#[export] Hint Resolve point_scalar_mul_ag : rel.
Lemma recode_while_ag : forall fuel table_bits w control position current, agrees (recode_while fuel table_bits w control position current) (r_recode_while fuel table_bits w control position current).
Proof. induction fuel as [|k0 IH]; intros; cbn [recode_while r_recode_while]; rel. Qed.
#[export] Hint Resolve recode_while_ag : rel.
Lemma recode_for_ag : forall rounds w s table_bits control position current, agrees (recode_for rounds w s table_bits control position current) (r_recode_for rounds w s table_bits control position current).
Proof. induction rounds as [|k0 IH]; intros; cbn [recode_for r_recode_for]; rel. Qed.
#[export] Hint Resolve recode_for_ag : rel.
Lemma recode_wnaf_ag : forall control s table_bits, agrees (recode_wnaf control s table_bits) (r_recode_wnaf control s table_bits).
Proof. intros. cbv beta delta [recode_wnaf r_recode_wnaf]. rel. Qed.
#[export] Hint Resolve recode_wnaf_ag : rel.
Lemma wnaf_loop_ag : forall n p tw_op, agrees (wnaf_loop n p tw_op) (r_wnaf_loop n p tw_op).
Proof. induction n as [|k0 IH]; intros; cbn [wnaf_loop r_wnaf_loop]; rel. Qed.
#[export] Hint Resolve wnaf_loop_ag : rel.
Lemma decaf_prepare_wnaf_table_ag : forall p, agrees (decaf_prepare_wnaf_table p) (r_decaf_prepare_wnaf_table p).
Proof. intros. cbv beta delta [decaf_prepare_wnaf_table r_decaf_prepare_wnaf_table]. rel. Qed.
#[export] Hint Resolve decaf_prepare_wnaf_table_ag : rel.
Lemma var_step_ag : forall cv cp i c precmp_var out, agrees (var_step cv cp i c precmp_var out) (r_var_step cv cp i c precmp_var out).
Proof. intros. cbv beta delta [var_step r_var_step]. rel. Qed.
#[export] Hint Resolve var_step_ag : rel.
Lemma pre_step_ag : forall cp i c out, agrees (pre_step cp i c out) (r_pre_step cp i c out).
Proof. intros. cbv beta delta [pre_step r_pre_step]. rel. Qed.
#[export] Hint Resolve pre_step_ag : rel.
Lemma double_mul_loop_ag : forall fuel control_var control_pre precmp_var i contv contp out, agrees (double_mul_loop fuel control_var control_pre precmp_var i contv contp out) (r_double_mul_loop fuel control_var control_pre precmp_var i contv contp out).
Proof. induction fuel as [|k0 IH]; intros; cbn [double_mul_loop r_double_mul_loop]; rel. Qed.
#[export] Hint Resolve double_mul_loop_ag : rel.
Lemma point_double_scalamul_non_secret_ag : forall p scalar_pre scalar_var, agrees (point_double_scalamul_non_secret p scalar_pre scalar_var) (r_point_double_scalamul_non_secret p scalar_pre scalar_var).
Proof. intros. cbv beta delta [point_double_scalamul_non_secret r_point_double_scalamul_non_secret]. rel. Qed.
#[export] Hint Resolve point_double_scalamul_non_secret_ag : rel.
Lemma eddsa_like_decode_ag : forall src_org, agrees (eddsa_like_decode src_org) (r_eddsa_like_decode src_org).
Proof. intros. cbv beta delta [eddsa_like_decode r_eddsa_like_decode]. rel. Qed.
#[export] Hint Resolve eddsa_like_decode_ag : rel.
Lemma comb_inner_ag : forall rounds j s i p, agrees (comb_inner rounds j s i p) (r_comb_inner rounds j s i p).
Proof. induction rounds as [|k0 IH]; intros; cbn [comb_inner r_comb_inner]; rel. Qed.
#[export] Hint Resolve comb_inner_ag : rel.
Lemma comb_outer_ag : forall rounds s p, agrees (comb_outer rounds s p) (r_comb_outer rounds s p).
Proof. induction rounds as [|k0 IH]; intros; cbn [comb_outer r_comb_outer]; rel. Qed.
#[export] Hint Resolve comb_outer_ag : rel.
Lemma precomputed_scalar_mul_ag : forall s, agrees (precomputed_scalar_mul s) (r_precomputed_scalar_mul s).
Proof. intros. cbv beta delta [precomputed_scalar_mul r_precomputed_scalar_mul]. rel. Qed.
#[export] Hint Resolve precomputed_scalar_mul_ag : rel.
Lemma dsa_verify_ag : forall xof pubkey sig message, agrees (dsa_verify xof pubkey sig message) (r_dsa_verify xof pubkey sig message).
Proof. intros. cbv beta delta [dsa_verify r_dsa_verify]. rel. Qed.
#[export] Hint Resolve dsa_verify_ag : rel.
Lemma point_by_secret_ag : forall p, agrees (point_by_secret p) (r_point_by_secret p).
Proof. intros. cbv beta delta [point_by_secret r_point_by_secret]. rel. Qed.
#[export] Hint Resolve point_by_secret_ag : rel.
Lemma secret_to_public_ag : forall sk, agrees (secret_to_public sk) (r_secret_to_public sk).
Proof. intros. cbv beta delta [secret_to_public r_secret_to_public]. rel. Qed.
#[export] Hint Resolve secret_to_public_ag : rel.
Lemma private_to_public_ag : forall xof pk, agrees (private_to_public xof pk) (r_private_to_public xof pk).
Proof. intros. cbv beta delta [private_to_public r_private_to_public]. rel. Qed.
#[export] Hint Resolve private_to_public_ag : rel.
Lemma sign_tail_ag : forall xof sec seed point message, agrees (sign_tail xof sec seed point message) (r_sign_tail xof sec seed point message).
Proof. intros. cbv beta delta [sign_tail r_sign_tail]. rel. Qed.
#[export] Hint Resolve sign_tail_ag : rel.
Lemma sign_by_private_ag : forall xof pk message, agrees (sign_by_private xof pk message) (r_sign_by_private xof pk message).
Proof. intros. cbv beta delta [sign_by_private r_sign_by_private]. rel. Qed.
#[export] Hint Resolve sign_by_private_ag : rel.
Lemma sign_with_secret_and_nonce_ag : forall xof secret n message, agrees (sign_with_secret_and_nonce xof secret n message) (r_sign_with_secret_and_nonce xof secret n message).
Proof. intros. cbv beta delta [sign_with_secret_and_nonce r_sign_with_secret_and_nonce]. rel. Qed.
#[export] Hint Resolve sign_with_secret_and_nonce_ag : rel.
Lemma ed448_derive_public_ag : forall xof pk, agrees (ed448_derive_public xof pk) (r_ed448_derive_public xof pk).
Proof. intros. cbv beta delta [ed448_derive_public r_ed448_derive_public]. rel. Qed.
#[export] Hint Resolve ed448_derive_public_ag : rel.
Lemma ed448_sign_ag : forall xof pk message, agrees (ed448_sign xof pk message) (r_ed448_sign xof pk message).
Proof. intros. cbv beta delta [ed448_sign r_ed448_sign]. rel. Qed.
#[export] Hint Resolve ed448_sign_ag : rel.
Lemma ed448_verify_ag : forall xof pubkey sig message, agrees (ed448_verify xof pubkey sig message) (r_ed448_verify xof pubkey sig message).
Proof. intros. cbv beta delta [ed448_verify r_ed448_verify]. rel. Qed.
#[export] Hint Resolve ed448_verify_ag : rel.
Lemma ed448_verify_with_error_ag : forall xof pubkey sig message, agrees (ed448_verify_with_error xof pubkey sig message) (r_ed448_verify_with_error xof pubkey sig message).
Proof. intros. cbv beta delta [ed448_verify_with_error r_ed448_verify_with_error]. rel. Qed.
#[export] Hint Resolve ed448_verify_with_error_ag : rel.
Lemma signing_from_str_ag : forall xof str, agrees (signing_from_str xof str) (r_signing_from_str xof str).
Proof. intros. cbv beta delta [signing_from_str r_signing_from_str]. rel. Qed.
#[export] Hint Resolve signing_from_str_ag : rel.
Lemma signing_from_slice_ag : forall xof s, agrees (signing_from_slice xof s) (r_signing_from_slice xof s).
Proof. intros. cbv beta delta [signing_from_slice r_signing_from_slice]. rel. Qed.
#[export] Hint Resolve signing_from_slice_ag : rel.
Lemma signing_from_bytes_ag : forall xof s, agrees (signing_from_bytes xof s) (r_signing_from_bytes xof s).
Proof. intros. cbv beta delta [signing_from_bytes r_signing_from_bytes]. rel. Qed.
#[export] Hint Resolve signing_from_bytes_ag : rel.
Lemma signing_from_secret_ag : forall xof s, agrees (signing_from_secret xof s) (r_signing_from_secret xof s).
Proof. intros. cbv beta delta [signing_from_secret r_signing_from_secret]. rel. Qed.
#[export] Hint Resolve signing_from_secret_ag : rel.
Lemma signing_random_ag : forall xof rng, agrees (signing_random xof rng) (r_signing_random xof rng).
Proof. intros. cbv beta delta [signing_random r_signing_random]. rel. Qed.
#[export] Hint Resolve signing_random_ag : rel.
Lemma sign_prehash_ag : forall xof s prehash, agrees (sign_prehash xof s prehash) (r_sign_prehash xof s prehash).
Proof. intros. cbv beta delta [sign_prehash r_sign_prehash]. rel. Qed.
#[export] Hint Resolve sign_prehash_ag : rel.
Lemma signing_deserialize_ag : forall xof f input, agrees (signing_deserialize xof f input) (r_signing_deserialize xof f input).
Proof. intros. cbv beta delta [signing_deserialize r_signing_deserialize]. rel. Qed.
#[export] Hint Resolve signing_deserialize_ag : rel.
