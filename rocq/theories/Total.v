(* extended_point.rs: the point operations on arbitrary coordinates (not only on points of the
   curve): no panic, and coordinates within the limb bounds. *)
From Coq Require Import ZArith List Bool Lia.
From Verif Require Import SpecField SpecBytes SpecScalar SpecCurve Base Arith Bytes Constants32 BigNumber ScalarModel
  Niels WnafTable ExtendedPoint.
From Verif Require Import LimbKara LimbMul LimbOps LimbOps2 LimbSer Field FieldOps ScalarProofs PointOps PointMul BaseTables Recode DoubleMul.
Import ListNotations.
Open Scope Z_scope.
Local Notation t2l := tight_loose.

Definition returns {A : Type} (o : option A) (P : A -> Prop) : Prop := exists r, o = Some r /\ P r.
Lemma returns_bind : forall (A B : Type) (o : option A) (f : A -> option B) (P : A -> Prop) (Q : B -> Prop),
  returns o P -> (forall r, P r -> returns (f r) Q) -> returns (bind o f) Q.
Proof. intros A B o f P Q (r & -> & H) K. rewrite bind_Some. apply K. exact H. Qed.
Lemma returns_some : forall (A : Type) (x : A) (P : A -> Prop), P x -> returns (Some x) P.
Proof. intros A x P H. exists x. auto. Qed.
Definition tight_pniels (m : pniels) : Prop := tight_niels (pn m) /\ tight (pnz m).

Lemma mul_T : forall a b, loose a -> loose b -> tight (mul a b).
Proof. intros a b Ha Hb. exact (proj1 (mul_F a b Ha Hb)). Qed.
Lemma square_T : forall a, loose a -> tight (square a).
Proof. intros a Ha. exact (proj1 (square_F a Ha)). Qed.
Lemma add_T : forall a b, loose a -> loose b -> tight (add a b).
Proof. intros a b Ha Hb. exact (proj1 (add_F a b Ha Hb)). Qed.
Lemma add_raw_T : forall a b, tight a -> tight b -> loose (add_raw a b).
Proof. intros a b Ha Hb. exact (proj1 (add_raw_F a b Ha Hb)). Qed.
Lemma sub_T : forall a b, loose a -> tight b -> returns (sub a b) tight.
Proof. intros a b Ha Hb. destruct (sub_F a b Ha Hb) as (r & E & T & _). exists r. auto. Qed.
Lemma subx_T : forall a b n, loose a -> loose b -> 3 <= n <= 4 -> returns (sub_x_bias a b n) tight.
Proof. intros a b n Ha Hb Hn. destruct (sub_x_bias_F a b n Ha Hb Hn) as (r & E & T & _). exists r. auto. Qed.
Create HintDb tgt.
#[local] Hint Resolve mul_T square_T add_T add_raw_T sub_T tight_loose one_tight zero_tight : tgt.

Lemma add_niels_T : forall p n b, tight_point p -> tight_niels n -> returns (add_niels_to_extended p n b) tight_point.
Proof.
  intros p n b (Tx & Ty & Tz & Tt) (Ta & Tb & Tc). unfold add_niels_to_extended. cbv zeta.
  eapply returns_bind; [ apply sub_T; auto with tgt | ]. intros b1 H1.
  eapply returns_bind; [ apply sub_T; auto with tgt | ]. intros b2 H2.
  eapply returns_bind; [ apply sub_T; auto with tgt | ]. intros y H3.
  apply returns_some. unfold tight_point. cbn [px py pz ExtendedPoint.pt].
  destruct b; cbn [negb]; auto 14 with tgt.
Qed.
Lemma sub_niels_T : forall p n b, tight_point p -> tight_niels n -> returns (sub_niels_from_extended_point p n b) tight_point.
Proof.
  intros p n b (Tx & Ty & Tz & Tt) (Ta & Tb & Tc). unfold sub_niels_from_extended_point. cbv zeta.
  eapply returns_bind; [ apply sub_T; auto with tgt | ]. intros b1 H1.
  eapply returns_bind; [ apply sub_T; auto with tgt | ]. intros b2 H2.
  eapply returns_bind; [ apply sub_T; auto with tgt | ]. intros y H3.
  apply returns_some. unfold tight_point. cbn [px py pz ExtendedPoint.pt].
  destruct b; cbn [negb]; auto 14 with tgt.
Qed.
Lemma add_pniels_T : forall p m b, tight_point p -> tight_pniels m -> returns (add_projected_niels_to_extended p m b) tight_point.
Proof.
  intros p m b (Tx & Ty & Tz & Tt) (Tn & Tm). unfold add_projected_niels_to_extended. cbv zeta.
  apply add_niels_T; [ | exact Tn ]. unfold tight_point. cbn [px py pz ExtendedPoint.pt]. auto 10 with tgt.
Qed.
Lemma sub_pniels_T : forall p m b, tight_point p -> tight_pniels m -> returns (sub_projected_niels_from_extended_point p m b) tight_point.
Proof.
  intros p m b (Tx & Ty & Tz & Tt) (Tn & Tm). unfold sub_projected_niels_from_extended_point. cbv zeta.
  apply sub_niels_T; [ | exact Tn ]. unfold tight_point. cbn [px py pz ExtendedPoint.pt]. auto 10 with tgt.
Qed.
Lemma double_T : forall p b, tight_point p -> returns (double_internal p b) tight_point.
Proof.
  intros p b (Tx & Ty & Tz & Tt). unfold double_internal. cbv zeta.
  eapply returns_bind; [ apply subx_T; auto with tgt; lia | ]. intros b1 H1.
  eapply returns_bind; [ apply sub_T; auto with tgt | ]. intros t1 H2.
  eapply returns_bind; [ apply subx_T; auto with tgt; lia | ]. intros a H3.
  apply returns_some. unfold tight_point. cbn [px py pz ExtendedPoint.pt].
  destruct b; cbn [negb]; auto 14 with tgt.
Qed.
Lemma to_pniels_T : forall p, tight_point p -> returns (to_projected_niels p) tight_pniels.
Proof.
  intros p (Tx & Ty & Tz & Tt). unfold to_projected_niels. cbv zeta.
  eapply returns_bind; [ apply sub_T; auto with tgt | ]. intros a H1.
  eapply (returns_bind _ _ _ _ tight).
  { destruct (mul_signed_F (ExtendedPoint.pt p) (2 * EDWARDS_D - 2) (t2l _ Tt) ltac:(unfold EDWARDS_D; lia)) as (c & Ec & Tc & _).
    exists c. auto. }
  intros c H2. apply returns_some. unfold tight_pniels, tight_niels. cbn [pn pnz na nb nc]. auto 10 with tgt.
Qed.
Lemma pniels_to_extended_T : forall m, tight_pniels m -> returns (pniels_to_extended m) tight_point.
Proof.
  intros m ((Ta & Tb & Tc) & Tz). unfold pniels_to_extended. cbv zeta.
  eapply returns_bind; [ apply sub_T; auto with tgt | ]. intros a H1.
  apply returns_some. unfold tight_point. cbn [px py pz ExtendedPoint.pt]. auto 14 with tgt.
Qed.
Lemma niels_to_extended_T : forall m, tight_niels m -> returns (niels_to_extended m) tight_point.
Proof.
  intros m (Ta & Tb & Tc). unfold niels_to_extended. cbv zeta.
  eapply returns_bind; [ apply sub_T; auto with tgt | ]. intros a H1.
  apply returns_some. unfold tight_point. cbn [px py pz ExtendedPoint.pt]. auto 14 with tgt.
Qed.
Lemma niels_negate_T : forall n b, tight_niels n -> returns (niels_conditional_negate n (mask b)) tight_niels.
Proof.
  intros n b (Ta & Tb & Tc). unfold niels_conditional_negate.
  rewrite conditional_swap_ok by (apply tight_max; assumption).
  destruct (conditional_negate_F (nc n) b Tc) as (c & Ec & T1 & V1).
  destruct b; cbv iota; rewrite Ec, bind_Some; apply returns_some; unfold tight_niels; cbn [na nb nc]; auto.
Qed.

Lemma window_loop_T : forall n p s, tight_point p -> tight_pniels s ->
  returns (window_loop n p s) (fun l => length l = n /\ Forall tight_pniels l).
Proof.
  induction n as [|n IH]; intros p s Hp Hs; cbn [window_loop]; [ apply returns_some; auto | ].
  eapply returns_bind; [ apply add_pniels_T; assumption | ]. intros p1 H1.
  eapply returns_bind; [ apply to_pniels_T; exact H1 | ]. intros e He.
  eapply returns_bind; [ apply IH; assumption | ]. intros l (Ll & Hl).
  apply returns_some. cbn [length]. auto.
Qed.
Lemma prepare_T : forall p, tight_point p -> returns (prepare_fixed_window p) (fun l => length l = 16%nat /\ Forall tight_pniels l).
Proof.
  intros p Hp. unfold prepare_fixed_window.
  eapply returns_bind; [ apply double_T; exact Hp | ]. intros p2 H2.
  eapply returns_bind; [ apply to_pniels_T; exact H2 | ]. intros s Hs.
  eapply returns_bind; [ apply to_pniels_T; exact Hp | ]. intros e He.
  eapply returns_bind; [ apply (window_loop_T 15 p s Hp Hs) | ]. intros l (Ll & Hl).
  apply returns_some. cbn [length]. auto.
Qed.
Lemma double5_T : forall p, tight_point p -> returns (double5 p) tight_point.
Proof.
  intros p Hp. unfold double5.
  repeat (eapply returns_bind; [ apply double_T; eassumption | ]; intros ? ?). apply double_T. assumption.
Qed.
Lemma znth_T : forall (A : Type) (P : A -> Prop) l i, Forall P l -> 0 <= i < Z.of_nat (length l) -> returns (znth l i) P.
Proof.
  intros A P l i HF Hi. destruct l as [|x l0] eqn:E; [ cbn [length] in Hi; lia | ]. rewrite <- E in *.
  rewrite (znth_spec _ l i x Hi). apply returns_some. rewrite Forall_forall in HF. apply HF. apply nth_In. lia.
Qed.
Lemma scalar_mul_loop_T : forall fuel s mult i out, wf s -> length mult = 16%nat -> Forall tight_pniels mult ->
  -5 <= i <= 445 -> i mod 5 = 0 -> i / 5 < Z.of_nat fuel ->
  (forall o, out = Some o -> tight_point o) ->
  returns (scalar_mul_loop fuel s mult i out) (fun r => forall o, r = Some o -> tight_point o).
Proof.
  induction fuel as [|f IH]; intros s mult i out Hs L HM Hi Hm Hf Ho.
  - cbn [scalar_mul_loop]. destruct (Z.geb_spec i 0) as [H|H].
    + exfalso. pose proof (Z.div_pos i 5 ltac:(lia) ltac:(lia)). lia.
    + apply returns_some. exact Ho.
  - cbn [scalar_mul_loop]. destruct (Z.geb_spec i 0) as [H|H]; [ | apply returns_some; exact Ho ].
    rewrite window_digit_ok by (assumption || lia). rewrite bind_Some. cbv beta iota.
    set (b := win (v32 s) i). pose proof (win_range (v32 s) i) as R. fold b in R. clearbody b.
    destruct (digit_split b R) as (E1 & E2). rewrite E2, E1.
    assert (K : i - 5 = 5 * (i / 5 - 1)). { pose proof (Z.div_mod i 5 ltac:(lia)). lia. }
    eapply returns_bind; [ apply (znth_T _ _ _ _ HM); rewrite L; destruct (Z.ltb_spec b 16); lia | ]. intros m (Hm1 & Hm2).
    eapply returns_bind; [ apply niels_negate_T; exact Hm1 | ]. intros n Hn. cbv beta zeta.
    eapply (returns_bind _ _ _ _ tight_point).
    + destruct out as [o|].
      * eapply returns_bind; [ apply double5_T; apply Ho; reflexivity | ]. intros o5 H5.
        apply add_pniels_T; [ exact H5 | split; assumption ].
      * apply pniels_to_extended_T. split; assumption.
    + intros o' Ho'. apply IH; try assumption; try lia.
      * rewrite K, Z.mul_comm. apply Z.mod_mul. lia.
      * rewrite K, Z.mul_comm, Z.div_mul by lia. lia.
      * intros o E. injection E as <-. exact Ho'.
Qed.
Lemma zero_bn_tight : tight create_zero_bignumber.
Proof. exact zero_tight. Qed.
Lemma point_scalar_mul_T : forall p s, tight_point p -> red s -> returns (point_scalar_mul p s) tight_point.
Proof.
  intros p s Hp Hs. unfold point_scalar_mul.
  destruct (adjust_ok s Hs) as (t & Et & Rt & Vt). rewrite Et, bind_Some. cbv beta zeta.
  eapply returns_bind; [ apply prepare_T; exact Hp | ]. intros l (Ll & Hl).
  eapply returns_bind.
  - apply (scalar_mul_loop_T 100 (halve t) l _ None (proj1 Rt) Ll Hl); try discriminate; vm_compute; intuition congruence.
  - intros [o|] Ho; apply returns_some; [ apply Ho; reflexivity | ].
    pose proof zero_bn_tight. unfold tight_point, point_new. cbn [px py pz ExtendedPoint.pt]. auto.
Qed.

(* the double multiplication *)
Lemma wnaf_loop_T : forall n p s, tight_point p -> tight_pniels s ->
  returns (wnaf_loop n p s) (fun l => length l = n /\ Forall tight_pniels l).
Proof.
  induction n as [|n IH]; intros p s Hp Hs; cbn [wnaf_loop]; [ apply returns_some; auto | ].
  eapply returns_bind; [ apply add_pniels_T; assumption | ]. intros p1 H1.
  eapply returns_bind; [ apply to_pniels_T; exact H1 | ]. intros e He.
  eapply returns_bind; [ apply IH; assumption | ]. intros l (Ll & Hl).
  apply returns_some. cbn [length]. auto.
Qed.
Lemma prepare_wnaf_T : forall p, tight_point p -> returns (decaf_prepare_wnaf_table p) (fun l => length l = 8%nat /\ Forall tight_pniels l).
Proof.
  intros p Hp. unfold decaf_prepare_wnaf_table.
  eapply returns_bind; [ apply to_pniels_T; exact Hp | ]. intros e He.
  eapply returns_bind; [ apply double_T; exact Hp | ]. intros p2 H2.
  eapply returns_bind; [ apply to_pniels_T; exact H2 | ]. intros s Hs.
  eapply returns_bind; [ apply add_pniels_T; eassumption | ]. intros p3 H3.
  eapply returns_bind; [ apply to_pniels_T; exact H3 | ]. intros e3 He3.
  eapply returns_bind; [ apply (wnaf_loop_T 6 p3 s H3 Hs) | ]. intros l (Ll & Hl).
  apply returns_some. cbn [length]. auto.
Qed.
Lemma base_entry_T : forall a, Z.odd a = true -> 0 < a < 64 -> returns (znth DECAF_WNAF_TABLE (usize_half a)) tight_niels.
Proof. intros a Ho Ha. destruct (base_entry a Ho Ha) as (m & E & H). exists m. split; [ exact E | exact (proj1 H) ]. Qed.
Lemma half_lt : forall a n, 0 < a < 2 * n -> 0 <= a / 2 < n.
Proof. intros a n H. split; [ apply Z.div_pos; lia | apply Z.div_lt_upper_bound; lia ]. Qed.
Lemma var_step_T : forall cv cp i c tbl out, length tbl = 8%nat -> Forall tight_pniels tbl ->
  (cv = true -> digit_ok 3 c) -> tight_point out -> returns (var_step cv cp i c tbl out) tight_point.
Proof.
  intros cv cp i c tbl out L HT HD Ho. unfold var_step. destruct cv; [ | apply returns_some; exact Ho ].
  destruct (HD eq_refl) as (Hodd & Hr). change (2 ^ (3 + 1)) with 16 in Hr. pose proof (odd_nz _ Hodd).
  destruct (Z.gtb_spec (addend c) 0).
  - rewrite usize_half_ok by lia.
    eapply returns_bind; [ apply (znth_T _ _ _ _ HT); rewrite L; apply half_lt; lia | ]. intros m Hm. apply add_pniels_T; assumption.
  - rewrite chk_i64_small by lia. rewrite bind_Some. cbv beta. rewrite usize_half_ok by lia.
    eapply returns_bind; [ apply (znth_T _ _ _ _ HT); rewrite L; apply half_lt; lia | ]. intros m Hm. apply sub_pniels_T; assumption.
Qed.
Lemma pre_step_T : forall cp i c out, (cp = true -> digit_ok 5 c) -> tight_point out -> returns (pre_step cp i c out) tight_point.
Proof.
  intros cp i c out HD Ho. unfold pre_step. destruct cp; [ | apply returns_some; exact Ho ].
  destruct (HD eq_refl) as (Hodd & Hr). change (2 ^ (5 + 1)) with 64 in Hr. pose proof (odd_nz _ Hodd).
  destruct (Z.gtb_spec (addend c) 0).
  - eapply returns_bind; [ apply base_entry_T; [ exact Hodd | lia ] | ]. intros m Hm. apply add_niels_T; assumption.
  - rewrite chk_i64_small by lia. rewrite bind_Some. cbv beta.
    eapply returns_bind; [ apply base_entry_T; [ apply odd_opp; exact Hodd | lia ] | ]. intros m Hm. apply sub_niels_T; assumption.
Qed.
Lemma double_mul_loop_T : forall fuel Cv Cp tbl i contv contp dv dp out, length tbl = 8%nat -> Forall tight_pniels tbl ->
  -1 <= i -> (Z.to_nat (i + 1) <= fuel)%nat -> stream 3 i Cv contv dv -> stream 5 i Cp contp dp -> tight_point out ->
  returns (double_mul_loop fuel Cv Cp tbl i contv contp out) tight_point.
Proof.
  induction fuel as [|f IH]; intros Cv Cp tbl i contv contp dv dp out L HT Hi Hf Sv Sp Ho.
  - assert (i = -1) by lia. subst i. apply returns_some. exact Ho.
  - cbn [double_mul_loop]. destruct (Z.geb_spec i 0) as [Hi0|Hi0]; [ | apply returns_some; exact Ho ].
    destruct (stream_next 3 i Cv contv dv ltac:(lia) Hi0 Sv) as (c_v & dv' & E1 & D1 & S1 & V1).
    destruct (stream_next 5 i Cp contp dp ltac:(lia) Hi0 Sp) as (c_p & dp' & E2 & D2 & S2 & V2).
    rewrite E1, bind_Some. cbv beta. rewrite E2, bind_Some. cbv beta zeta.
    eapply returns_bind; [ apply double_T; exact Ho | ]. intros o1 H1.
    eapply returns_bind; [ apply (var_step_T _ _ _ _ _ _ L HT D1 H1) | ]. intros o2 H2.
    eapply returns_bind; [ apply (pre_step_T _ _ _ _ D2 H2) | ]. intros o3 H3.
    eapply IH; try eassumption; lia.
Qed.
Lemma identity_T : tight_point identity_point.
Proof. pose proof zero_tight. pose proof one_tight. unfold tight_point, identity_point. cbn [px py pz ExtendedPoint.pt]. auto. Qed.
Lemma double_scalamul_T : forall p s_pre s_var, tight_point p -> wf s_pre -> v32 s_pre <= 2 ^ 446 -> wf s_var -> v32 s_var <= 2 ^ 446 ->
  returns (point_double_scalamul_non_secret p s_pre s_var) tight_point.
Proof.
  intros p sp sv Hp Wp Bp Wv Bv. unfold point_double_scalamul_non_secret. cbv zeta.
  destruct (recode_ok (repeat smvt_new 77) sp 5 ltac:(lia) Wp Bp) as (dp & rp & r1 & E1 & L1).
  { rewrite repeat_length. vm_compute. lia. }
  rewrite E1, bind_Some. cbv beta iota.
  destruct (recode_ok (repeat smvt_new 115) sv 3 ltac:(lia) Wv Bv) as (dv & rv & r2 & E2 & L2).
  { rewrite repeat_length. vm_compute. lia. }
  rewrite E2, bind_Some. cbv beta iota. clear E1 E2.
  eapply returns_bind; [ apply prepare_wnaf_T; exact Hp | ]. intros tbl (Lt & HT).
  pose proof L1 as (F1 & P1 & V1 & T1). pose proof L2 as (F2 & P2 & V2 & T2).
  assert (HV : forall d t, dv = d :: t -> returns (znth tbl (wrap64 (Z.shiftr (addend d) 1))) tight_pniels).
  { intros d t Ed. rewrite Ed in F2, T2. inversion F2 as [|? ? D1 D2]; subst. destruct D1 as (Ho & Hr). change (2 ^ (3 + 1)) with 16 in Hr.
    rewrite Z.shiftr_div_pow2 by lia. change (2 ^ 1) with 2. pose proof (half_lt (addend d) 8 ltac:(lia)).
    rewrite wrap64_small by lia. apply (znth_T _ _ _ _ HT). rewrite Lt. lia. }
  assert (HP : forall d t, dp = d :: t -> returns (znth DECAF_WNAF_TABLE (usize_half (addend d))) tight_niels).
  { intros d t Ed. rewrite Ed in F1, T1. inversion F1 as [|? ? D1 D2]; subst. destruct D1 as (Ho & Hr). change (2 ^ (5 + 1)) with 64 in Hr.
    apply base_entry_T; [ exact Ho | lia ]. }
  destruct dv as [|cv tv].
  - destruct dp as [|cp tp].
    + change (znth ([] ++ wnaf_end :: rv) 0) with (Some wnaf_end). change (znth ([] ++ wnaf_end :: rp) 0) with (Some wnaf_end).
      rewrite !bind_Some. cbv beta. change (usize_half (addend wnaf_end)) with 0. change (power wnaf_end) with (-1).
      cbn [Z.gtb Z.compare Z.opp CompOpp Pos.compare Pos.compare_cont Z.eqb Pos.eqb Z.geb andb].
      destruct (wnaf_table_ok 0 ltac:(lia)) as (n0 & En0 & Hn0). rewrite En0, bind_Some. cbv beta.
      destruct (niels_to_extended_T n0 (proj1 Hn0)) as (o & Eo & _). rewrite Eo, !bind_Some. cbv beta iota.
      apply returns_some. exact identity_T.
    + change (znth ([] ++ wnaf_end :: rv) 0) with (Some wnaf_end). change (znth ((cp :: tp) ++ wnaf_end :: rp) 0) with (Some cp).
      rewrite !bind_Some. cbv beta. cbn [spaced] in P1. change (power wnaf_end) with (-1).
      destruct (Z.gtb_spec (-1) (power cp)); [ lia | ]. destruct (Z.eqb_spec (-1) (power cp)); [ lia | ]. cbn [andb].
      destruct (HP cp tp eq_refl) as (nn & En & Hn). rewrite En, bind_Some. cbv beta.
      destruct (niels_to_extended_T _ Hn) as (o & Eo & Ho). rewrite Eo, !bind_Some. cbv beta iota.
      destruct (Z.ltb_spec (power cp) 0); [ lia | ].
      apply (double_mul_loop_T 500 _ _ tbl (power cp - 1) 0 1 [] tp o Lt HT ltac:(lia) ltac:(lia)); [ | | exact Ho ].
      * apply (stream_start _ _ _ _ _ L2). exact I.
      * apply (stream_tail _ _ _ _ _ L1). lia.
  - change (znth ((cv :: tv) ++ wnaf_end :: rv) 0) with (Some cv). rewrite bind_Some. cbv beta.
    cbn [spaced] in P2. destruct (HV cv tv eq_refl) as (m & Em & Hm). destruct (pniels_to_extended_T _ Hm) as (o & Eo & Ho).
    destruct dp as [|cp tp].
    + change (znth ([] ++ wnaf_end :: rp) 0) with (Some wnaf_end). rewrite bind_Some. cbv beta. change (power wnaf_end) with (-1).
      destruct (Z.gtb_spec (power cv) (-1)); [ | lia ]. rewrite Em, bind_Some. cbv beta. rewrite Eo, !bind_Some. cbv beta iota.
      destruct (Z.ltb_spec (power cv) 0); [ lia | ].
      apply (double_mul_loop_T 500 _ _ tbl (power cv - 1) 1 0 tv [] o Lt HT ltac:(lia) ltac:(lia)); [ | | exact Ho ].
      * apply (stream_tail _ _ _ _ _ L2). lia.
      * apply (stream_start _ _ _ _ _ L1). exact I.
    + change (znth ((cp :: tp) ++ wnaf_end :: rp) 0) with (Some cp). rewrite bind_Some. cbv beta. cbn [spaced] in P1.
      destruct (HP cp tp eq_refl) as (nn & En & Hn).
      destruct (Z.gtb_spec (power cv) (power cp)).
      * rewrite Em, bind_Some. cbv beta. rewrite Eo, !bind_Some. cbv beta iota.
        destruct (Z.ltb_spec (power cv) 0); [ lia | ].
        apply (double_mul_loop_T 500 _ _ tbl (power cv - 1) 1 0 tv (cp :: tp) o Lt HT ltac:(lia) ltac:(lia)); [ | | exact Ho ].
        -- apply (stream_tail _ _ _ _ _ L2). lia.
        -- apply (stream_start _ _ _ _ _ L1). lia.
      * destruct (Z.eqb_spec (power cv) (power cp)) as [EP|EP].
        -- destruct (Z.geb_spec (power cv) 0); [ | lia ]. cbn [andb]. rewrite Em, bind_Some. cbv beta. rewrite Eo, bind_Some. cbv beta.
           rewrite En, bind_Some. cbv beta.
           destruct (add_niels_T o nn (negb (power cv =? 0)) Ho Hn) as (o2 & Eo2 & Ho2). rewrite Eo2, !bind_Some. cbv beta iota.
           destruct (Z.ltb_spec (power cv) 0); [ lia | ].
           apply (double_mul_loop_T 500 _ _ tbl (power cv - 1) 1 1 tv tp o2 Lt HT ltac:(lia) ltac:(lia)); [ | | exact Ho2 ].
           ++ apply (stream_tail _ _ _ _ _ L2). lia.
           ++ rewrite EP. apply (stream_tail _ _ _ _ _ L1). lia.
        -- cbn [andb]. rewrite En, bind_Some. cbv beta. destruct (niels_to_extended_T _ Hn) as (o' & Eo' & Ho'). rewrite Eo', !bind_Some. cbv beta iota.
           destruct (Z.ltb_spec (power cp) 0); [ lia | ].
           apply (double_mul_loop_T 500 _ _ tbl (power cp - 1) 0 1 (cv :: tv) tp o' Lt HT ltac:(lia) ltac:(lia)); [ | | exact Ho' ].
           ++ apply (stream_start _ _ _ _ _ L2). lia.
           ++ apply (stream_tail _ _ _ _ _ L1). lia.
Qed.

(* encoding and comparison *)
Lemma encode_point_T : forall p, tight_point p -> returns (eddsa_like_encode p) (fun l => length l = 57%nat /\ bytes l).
Proof.
  intros p (Tx & Ty & Tz & Tt). unfold eddsa_like_encode. cbv zeta.
  eapply returns_bind; [ apply sub_T; auto 12 with tgt | ]. intros y H1.
  eapply returns_bind; [ apply sub_T; auto 12 with tgt | ]. intros z H2.
  eapply returns_bind; [ apply sub_T; auto 12 with tgt | ]. intros t H3.
  match goal with |- returns (bind (invert ?a) _) _ => destruct (invert_F a ltac:(auto 10 with tgt)) as (zi & Ei & Ti & _) end.
  rewrite Ei, bind_Some. cbv beta.
  rewrite serialize_F by auto 12 with tgt. rewrite bind_Some. cbv beta.
  rewrite low_bit_F by auto 12 with tgt. rewrite bind_Some. cbv beta.
  apply returns_some. rewrite app_length, le_bytes_length. split; [ reflexivity | ].
  apply Forall_app. split; [ apply le_bytes_bytes | ]. constructor; [ | constructor ].
  destruct (Z.odd _); split; vm_compute; congruence.
Qed.
