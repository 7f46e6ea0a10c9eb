(* extended_point.rs: point_double_scalamul_non_secret. *)
From Coq Require Import ZArith List Bool Lia.
From Verif Require Import SpecScalar SpecCurve Base Arith Bytes Constants32 ScalarModel Niels WnafTable ExtendedPoint
  ScalarProofs Field FieldOps Edwards Isogeny PointOps PointMul CombMul BaseTables Recode.
Import ListNotations.
Open Scope Z_scope.

(* the table of odd multiples of the variable point *)
Lemma wnaf_loop_ok : forall n p step k Q, on_curve Q -> isP p (emul k Q) -> isPN step (emul 2 Q) ->
  exists l, wnaf_loop n p step = Some l /\ length l = n /\
    forall i d, (i < n)%nat -> isPN (nth i l d) (emul (k + 2 * (Z.of_nat i + 1)) Q).
Proof.
  induction n as [|n IH]; intros p step k Q HQ Hp Hs; cbn [wnaf_loop].
  - exists []. split; [ reflexivity | ]. split; [ reflexivity | ]. intros; lia.
  - destruct (add_pniels_ok p step false _ _ Hp Hs) as (p' & E & H). rewrite E, bind_Some. cbv beta.
    apply isB_false in H. rewrite <- emul_add in H by exact HQ.
    destruct (to_pniels_ok p' _ H) as (e & Ee & He). rewrite Ee, bind_Some. cbv beta.
    destruct (IH p' step (k + 2) Q HQ H Hs) as (l & El & Ll & Hl). rewrite El, bind_Some. cbv beta.
    eexists. split; [ reflexivity | ]. split; [ cbn [length]; lia | ].
    intros [|i] d Hi; cbn [nth]; [ exact He | ].
    replace (k + 2 * (Z.of_nat (S i) + 1)) with (k + 2 + 2 * (Z.of_nat i + 1)) by lia. apply Hl. lia.
Qed.
Lemma prepare_wnaf_ok : forall p Q, isP p Q -> exists l, decaf_prepare_wnaf_table p = Some l /\ odd_table l 8 Q.
Proof.
  intros p Q Hp. pose proof (isP_on _ _ Hp) as HQ. unfold decaf_prepare_wnaf_table.
  destruct (to_pniels_ok p _ Hp) as (e & Ee & He). rewrite Ee, bind_Some. cbv beta.
  destruct (double_ok p false Q (proj1 Hp)) as (p2 & E2 & H2). rewrite E2, bind_Some. cbv beta.
  apply isB_false in H2. rewrite <- emul_2 in H2 by exact HQ.
  destruct (to_pniels_ok p2 _ H2) as (st & Es & Hs). rewrite Es, bind_Some. cbv beta.
  rewrite <- (emul_1 Q) in He.
  destruct (add_pniels_ok p2 e false _ _ H2 He) as (p3 & E3 & H3). rewrite E3, bind_Some. cbv beta.
  apply isB_false in H3. rewrite <- emul_add in H3 by exact HQ.
  destruct (to_pniels_ok p3 _ H3) as (e3 & Ee3 & He3). rewrite Ee3, bind_Some. cbv beta.
  destruct (wnaf_loop_ok 6 p3 st (2 + 1) Q HQ H3 Hs) as (l & El & Ll & Hl). rewrite El, bind_Some. cbv beta.
  eexists. split; [ reflexivity | ]. split; [ cbn [length]; lia | ].
  intros [|[|i]] d Hi; cbn [nth]; [ exact He | exact He3 | ].
  replace (2 * Z.of_nat (S (S i)) + 1) with (2 + 1 + 2 * (Z.of_nat i + 1)) by lia. apply Hl. lia.
Qed.

(* the digits still to be read at bit position i *)
Definition stream (tb i : Z) (C : list smvt) (cont : Z) (ds : list smvt) : Prop :=
  (exists pre rest, C = pre ++ ds ++ wnaf_end :: rest /\ cont = Z.of_nat (length pre)) /\
  Forall (digit_ok tb) ds /\ spaced (tb + 2) ds /\ match ds with [] => True | d :: _ => power d <= i end.
Lemma stream_next : forall tb i C cont ds, 0 <= tb -> 0 <= i -> stream tb i C cont ds ->
  exists c ds', znth C cont = Some c /\
    ((i =? power c) = true -> digit_ok tb c) /\
    stream tb (i - 1) C (if i =? power c then cont + 1 else cont) ds' /\
    dsum ds = (if i =? power c then addend c else 0) * 2 ^ i + dsum ds'.
Proof.
  intros tb i C cont ds Ht Hi ((pre & rest & EC & Ec) & HF & HS & HP).
  destruct ds as [|d t].
  - exists wnaf_end, []. assert (E : (i =? power wnaf_end) = false) by (apply Z.eqb_neq; unfold wnaf_end; cbn [power]; lia).
    rewrite E. split; [ rewrite EC, Ec; apply znth_app_r | ]. split; [ discriminate | ].
    split; [ | cbn [dsum]; ring ]. split; [ exists pre, rest; split; [ exact EC | exact Ec ] | ].
    split; [ constructor | ]. split; exact I.
  - cbn [spaced] in HS. destruct HS as (S0 & S1 & S2). inversion HF as [|? ? D1 D2]; subst.
    destruct (Z.eqb_spec i (power d)) as [E|E].
    + exists d, t. rewrite (proj2 (Z.eqb_eq _ _) E). split; [ apply (znth_app_r _ pre (t ++ wnaf_end :: rest) d) | ].
      split; [ intros _; exact D1 | ].
      split; [ | cbn [dsum]; rewrite E; ring ].
      split; [ exists (pre ++ [d]), rest; split; [ rewrite <- app_assoc; reflexivity | rewrite app_length; cbn [length]; lia ] | ].
      split; [ exact D2 | ]. split; [ exact S2 | ]. destruct t; [ exact I | lia ].
    + exists d, (d :: t). rewrite (proj2 (Z.eqb_neq _ _) E). split; [ apply (znth_app_r _ pre (t ++ wnaf_end :: rest) d) | ].
      split; [ discriminate | ]. split; [ | ring ].
      split; [ exists pre, rest; split; reflexivity | ]. split; [ exact HF | ]. split; [ cbn [spaced]; auto | lia ].
Qed.

Lemma usize_half_ok : forall a, 0 <= a < 2 ^ 32 -> usize_half a = a / 2.
Proof.
  intros a H. unfold usize_half. rewrite wrap64_small by lia.
  rewrite Z.shiftr_div_pow2 by lia. reflexivity.
Qed.
Lemma odd_entry : forall l n Q a, odd_table l n Q -> Z.odd a = true -> 0 < a < 2 * Z.of_nat n -> a < 2 ^ 32 ->
  exists m, znth l (usize_half a) = Some m /\ isPN m (emul a Q).
Proof.
  intros l n Q a (L & T) Ho Ha Hs. rewrite usize_half_ok by lia.
  apply Z.odd_spec in Ho. destruct Ho as (k & Ek). assert (E : a / 2 = k).
  { rewrite Ek, Z.mul_comm, Z.div_add_l by lia. change (1 / 2) with 0. lia. }
  rewrite E. destruct l as [|m0 l0] eqn:EL; [ cbn [length] in L; lia | ]. rewrite <- EL in *.
  rewrite (znth_spec _ _ _ m0) by lia. eexists. split; [ reflexivity | ].
  specialize (T (Z.to_nat k) m0 ltac:(lia)). rewrite Z2Nat.id in T by lia. rewrite Ek. exact T.
Qed.
Lemma base_entry : forall a, Z.odd a = true -> 0 < a < 64 ->
  exists m, znth DECAF_WNAF_TABLE (usize_half a) = Some m /\ isN m (emul a ebase).
Proof.
  intros a Ho Ha. rewrite usize_half_ok by lia. apply Z.odd_spec in Ho. destruct Ho as (k & Ek). assert (E : a / 2 = k).
  { rewrite Ek, Z.mul_comm, Z.div_add_l by lia. change (1 / 2) with 0. lia. }
  rewrite E. destruct (wnaf_table_ok k ltac:(lia)) as (m & E1 & H1). exists m. split; [ exact E1 | ]. rewrite Ek. exact H1.
Qed.
Lemma odd_opp : forall a, Z.odd a = true -> Z.odd (- a) = true.
Proof. intros a H. rewrite Z.odd_opp. exact H. Qed.
Lemma odd_nz : forall a, Z.odd a = true -> a <> 0.
Proof. intros a H E. rewrite E in H. discriminate. Qed.
Lemma chk_i64_small : forall a, - 2 ^ 32 < a < 2 ^ 32 -> chk_i64 a = Some a.
Proof.
  intros a H. unfold chk_i64, chk. match goal with |- (if ?b then _ else _) = _ => replace b with true; [ reflexivity | ] end.
  symmetry. apply andb_true_intro. split; [ apply Z.leb_le | apply Z.ltb_lt ]; lia.
Qed.

Lemma var_step_ok : forall cv cp i c tbl out P Q, odd_table tbl 8 Q -> on_curve P ->
  (cv = true -> digit_ok 3 c) -> isB (negb (i =? 0) && negb (cv || cp)) out P ->
  exists r, var_step cv cp i c tbl out = Some r /\
    isB (negb (i =? 0) && negb cp) r (eadd P (emul (if cv then addend c else 0) Q)).
Proof.
  intros cv cp i c tbl out P Q HT HP HD HB. unfold var_step. destruct cv; cbn [orb] in HB.
  - destruct (HD eq_refl) as (Ho & Hr). change (2 ^ (3 + 1)) with 16 in Hr. pose proof (odd_nz _ Ho).
    cbn [negb] in HB. rewrite andb_false_r in HB. apply isB_false in HB.
    destruct (Z.gtb_spec (addend c) 0).
    + destruct (odd_entry tbl 8 Q (addend c) HT Ho ltac:(lia) ltac:(lia)) as (m & Em & Hm). rewrite Em, bind_Some. cbv beta.
      apply add_pniels_ok; assumption.
    + rewrite chk_i64_small by lia. rewrite bind_Some. cbv beta.
      destruct (odd_entry tbl 8 Q (- addend c) HT (odd_opp _ Ho) ltac:(lia) ltac:(lia)) as (m & Em & Hm). rewrite Em, bind_Some. cbv beta.
      replace (emul (addend c) Q) with (eneg (emul (- addend c) Q)) by (rewrite emul_opp, eneg_neg; reflexivity).
      apply sub_pniels_ok; assumption.
  - exists out. split; [ reflexivity | ]. rewrite emul_0, eadd_0_r. exact HB.
Qed.
Lemma pre_step_ok : forall cp i c out P, on_curve P ->
  (cp = true -> digit_ok 5 c) -> isB (negb (i =? 0) && negb cp) out P ->
  exists r, pre_step cp i c out = Some r /\ isB (negb (i =? 0)) r (eadd P (emul (if cp then addend c else 0) ebase)).
Proof.
  intros cp i c out P HP HD HB. unfold pre_step. destruct cp.
  - destruct (HD eq_refl) as (Ho & Hr). change (2 ^ (5 + 1)) with 64 in Hr. pose proof (odd_nz _ Ho).
    cbn [negb] in HB. rewrite andb_false_r in HB. apply isB_false in HB.
    destruct (Z.gtb_spec (addend c) 0).
    + destruct (base_entry (addend c) Ho ltac:(lia)) as (m & Em & Hm). rewrite Em, bind_Some. cbv beta.
      apply add_niels_ok; assumption.
    + rewrite chk_i64_small by lia. rewrite bind_Some. cbv beta.
      destruct (base_entry (- addend c) (odd_opp _ Ho) ltac:(lia)) as (m & Em & Hm). rewrite Em, bind_Some. cbv beta.
      replace (emul (addend c) ebase) with (eneg (emul (- addend c) ebase)) by (rewrite emul_opp, eneg_neg; reflexivity).
      apply sub_niels_ok; assumption.
  - exists out. split; [ reflexivity | ]. rewrite emul_0, eadd_0_r. cbn [negb] in HB. rewrite andb_true_r in HB. exact HB.
Qed.

Lemma isB_false' : forall b p Q, isP p Q -> isB b p Q.
Proof. intros b p Q H. split; [ exact (proj1 H) | intros _; exact H ]. Qed.

(* a Q + b B *)
Definition lin (Q : ept) (a b : Z) : ept := eadd (emul a Q) (emul b ebase).
Lemma lin_on : forall Q a b, on_curve Q -> on_curve (lin Q a b).
Proof. intros. apply eadd_on; apply emul_on; [ assumption | exact ebase_on ]. Qed.
Lemma lin_add : forall Q a b a' b', on_curve Q -> eadd (lin Q a b) (lin Q a' b') = lin Q (a + a') (b + b').
Proof.
  intros. unfold lin. pose proof ebase_on. rewrite (emul_add a a'), (emul_add b b') by assumption.
  apply four_swap; apply emul_on; assumption.
Qed.
Lemma lin_var : forall Q a b c, on_curve Q -> eadd (lin Q a b) (emul c Q) = lin Q (a + c) b.
Proof.
  intros Q a b c H. replace (emul c Q) with (lin Q c 0) by (unfold lin; rewrite emul_0, eadd_0_r; reflexivity).
  rewrite lin_add by exact H. rewrite Z.add_0_r. reflexivity.
Qed.
Lemma lin_pre : forall Q a b c, on_curve Q -> eadd (lin Q a b) (emul c ebase) = lin Q a (b + c).
Proof.
  intros Q a b c H. replace (emul c ebase) with (lin Q 0 c) by (unfold lin; rewrite emul_0, eadd_0_l; reflexivity).
  rewrite lin_add by exact H. rewrite Z.add_0_r. reflexivity.
Qed.

Lemma stream_end : forall tb C cont ds, stream tb (-1) C cont ds -> ds = [].
Proof. intros tb C cont ds (_ & _ & HS & HP). destruct ds; [ reflexivity | ]. cbn [spaced] in HS. lia. Qed.

Lemma double_mul_loop_ok : forall fuel Cv Cp tbl Q i contv contp dv dp out a b, on_curve Q -> odd_table tbl 8 Q ->
  -1 <= i -> (Z.to_nat (i + 1) <= fuel)%nat -> stream 3 i Cv contv dv -> stream 5 i Cp contp dp ->
  isB (negb (i + 1 =? 0)) out (lin Q a b) ->
  exists r, double_mul_loop fuel Cv Cp tbl i contv contp out = Some r /\
    isP r (lin Q (a * 2 ^ (i + 1) + dsum dv) (b * 2 ^ (i + 1) + dsum dp)).
Proof.
  induction fuel as [|f IH]; intros Cv Cp tbl Q i contv contp dv dp out a b HQ HT Hi Hf Sv Sp HB.
  - assert (i = -1) by lia. subst i. rewrite (stream_end _ _ _ _ Sv), (stream_end _ _ _ _ Sp).
    exists out. split; [ reflexivity | ]. cbn [dsum]. change (2 ^ (-1 + 1)) with 1.
    rewrite !Z.mul_1_r, !Z.add_0_r. apply isB_false. exact HB.
  - cbn [double_mul_loop]. destruct (Z.geb_spec i 0) as [Hi0|Hi0].
    + destruct (stream_next 3 i Cv contv dv ltac:(lia) Hi0 Sv) as (c_v & dv' & E1 & D1 & S1 & V1).
      destruct (stream_next 5 i Cp contp dp ltac:(lia) Hi0 Sp) as (c_p & dp' & E2 & D2 & S2 & V2).
      rewrite E1, bind_Some. cbv beta. rewrite E2, bind_Some. cbv beta zeta.
      destruct (double_ok out (negb (i =? 0) && negb ((i =? power c_v) || (i =? power c_p))) _ (proj1 HB)) as (o1 & Eo1 & H1).
      rewrite Eo1, bind_Some. cbv beta. rewrite lin_add in H1 by exact HQ.
      destruct (var_step_ok _ _ _ _ tbl _ _ Q HT (lin_on Q _ _ HQ) D1 H1) as (o2 & Eo2 & H2).
      rewrite Eo2, bind_Some. cbv beta. rewrite lin_var in H2 by exact HQ.
      destruct (pre_step_ok _ _ _ _ _ (lin_on Q _ _ HQ) D2 H2) as (o3 & Eo3 & H3).
      rewrite Eo3, bind_Some. cbv beta. rewrite lin_pre in H3 by exact HQ.
      destruct (IH Cv Cp tbl Q (i - 1) _ _ dv' dp' o3 _ _ HQ HT ltac:(lia) ltac:(lia) S1 S2
        ltac:(replace (i - 1 + 1) with i by ring; exact H3)) as (r & Er & Hr).
      exists r. split; [ exact Er | ]. rewrite V1, V2.
      replace (i - 1 + 1) with i in Hr by ring. rewrite Z.pow_add_r by lia. change (2 ^ 1) with 2.
      match goal with H : isP r (lin Q ?x ?y) |- isP r (lin Q ?x' ?y') => replace x' with x by ring; replace y' with y by ring; exact H end.
    + assert (i = -1) by lia. subst i. rewrite (stream_end _ _ _ _ Sv), (stream_end _ _ _ _ Sp).
      exists out. split; [ reflexivity | ]. cbn [dsum]. change (2 ^ (-1 + 1)) with 1.
      rewrite !Z.mul_1_r, !Z.add_0_r. apply isB_false. exact HB.
Qed.

(* the stream after the first digit, and the untouched stream *)
Lemma stream_tail : forall tb S d t rest, wnaf_list tb S (d :: t) -> 0 <= tb ->
  stream tb (power d - 1) ((d :: t) ++ wnaf_end :: rest) 1 t.
Proof.
  intros tb S d t rest (HF & HS & _ & _) Ht. inversion HF as [|? ? D1 D2]; subst. cbn [spaced] in HS. destruct HS as (S0 & S1 & S2).
  split; [ exists [d], rest; split; reflexivity | ]. split; [ exact D2 | ]. split; [ exact S2 | ].
  destruct t; [ exact I | lia ].
Qed.
Lemma stream_start : forall tb S ds i rest, wnaf_list tb S ds -> match ds with [] => True | d :: _ => power d <= i end ->
  stream tb i (ds ++ wnaf_end :: rest) 0 ds.
Proof.
  intros tb S ds i rest (HF & HS & _ & _) Hi.
  split; [ exists [], rest; split; reflexivity | ]. auto.
Qed.

Lemma double_scalamul_ok : forall p s_pre s_var Q, isP p Q -> wf s_pre -> v32 s_pre <= 2 ^ 446 -> wf s_var -> v32 s_var <= 2 ^ 446 ->
  exists r, point_double_scalamul_non_secret p s_pre s_var = Some r /\
    isP r (eadd (emul (v32 s_var) Q) (emul (v32 s_pre) ebase)).
Proof.
  intros p sp sv Q Hp Wp Bp Wv Bv. pose proof (isP_on _ _ Hp) as HQ. unfold point_double_scalamul_non_secret. cbv zeta.
  destruct (recode_ok (repeat smvt_new 77) sp 5 ltac:(lia) Wp Bp) as (dp & rp & r1 & E1 & L1).
  { rewrite repeat_length. vm_compute. lia. }
  rewrite E1, bind_Some. cbv beta iota.
  destruct (recode_ok (repeat smvt_new 115) sv 3 ltac:(lia) Wv Bv) as (dv & rv & r2 & E2 & L2).
  { rewrite repeat_length. vm_compute. lia. }
  rewrite E2, bind_Some. cbv beta iota. clear E1 E2.
  destruct (prepare_wnaf_ok p Q Hp) as (tbl & Et & HT). rewrite Et, bind_Some. cbv beta.
  change (eadd (emul (v32 sv) Q) (emul (v32 sp) ebase)) with (lin Q (v32 sv) (v32 sp)).
  pose proof L1 as (F1 & P1 & V1 & T1). pose proof L2 as (F2 & P2 & V2 & T2).
  assert (Hv : forall d t, dv = d :: t -> exists m, znth tbl (wrap64 (Z.shiftr (addend d) 1)) = Some m /\ isPN m (emul (addend d) Q)).
  { intros d t Ed. rewrite Ed in F2, T2. inversion F2 as [|? ? D1 D2]; subst. destruct D1 as (Ho & Hr). change (2 ^ (3 + 1)) with 16 in Hr.
    destruct (odd_entry tbl 8 Q (addend d) HT Ho ltac:(lia) ltac:(lia)) as (m & Em & Hm). exists m. split; [ | exact Hm ].
    rewrite <- Em. f_equal. rewrite usize_half_ok by lia. rewrite Z.shiftr_div_pow2 by lia. change (2 ^ 1) with 2.
    apply wrap64_small. pose proof (Z.div_pos (addend d) 2 ltac:(lia) ltac:(lia)).
    assert (addend d / 2 <= addend d) by (apply Z.div_le_upper_bound; lia). lia. }
  assert (Hp' : forall d t, dp = d :: t -> exists m, znth DECAF_WNAF_TABLE (usize_half (addend d)) = Some m /\ isN m (emul (addend d) ebase)).
  { intros d t Ed. rewrite Ed in F1, T1. inversion F1 as [|? ? D1 D2]; subst. destruct D1 as (Ho & Hr). change (2 ^ (5 + 1)) with 64 in Hr.
    apply base_entry; [ exact Ho | lia ]. }
  destruct dv as [|cv tv].
  - destruct dp as [|cp tp].
    + (* both zero *)
      exists identity_point. split.
      * destruct (wnaf_table_ok 0 ltac:(lia)) as (n0 & En0 & Hn0). destruct (niels_to_extended_ok _ _ Hn0) as (o & Eo & _).
        change (znth ([] ++ wnaf_end :: rv) 0) with (Some wnaf_end). change (znth ([] ++ wnaf_end :: rp) 0) with (Some wnaf_end).
        rewrite !bind_Some. cbv beta. change (usize_half (addend wnaf_end)) with 0. rewrite En0, !bind_Some. cbv beta. rewrite Eo, bind_Some.
        cbv beta. change (power wnaf_end) with (-1). cbn [Z.gtb Z.compare Z.opp CompOpp Pos.compare Pos.compare_cont Z.eqb Pos.eqb Z.geb andb].
        rewrite bind_Some. cbv beta iota. reflexivity.
      * cbn [dsum] in V1, V2. rewrite <- V1, <- V2. unfold lin. rewrite !emul_0, eadd_0_l. exact identity_ok.
    + (* only the fixed digits *)
      change (znth ([] ++ wnaf_end :: rv) 0) with (Some wnaf_end). change (znth ((cp :: tp) ++ wnaf_end :: rp) 0) with (Some cp).
      rewrite !bind_Some. cbv beta. cbn [spaced] in P1. change (power wnaf_end) with (-1).
      destruct (Z.gtb_spec (-1) (power cp)); [ lia | ]. destruct (Z.eqb_spec (-1) (power cp)); [ lia | ]. cbn [andb].
      destruct (Hp' cp tp eq_refl) as (nn & En & Hn). rewrite En, bind_Some. cbv beta.
      destruct (niels_to_extended_ok _ _ Hn) as (o & Eo & Ho). rewrite Eo, !bind_Some. cbv beta iota.
      destruct (Z.ltb_spec (power cp) 0); [ lia | ].
      destruct (double_mul_loop_ok 500 ([] ++ wnaf_end :: rv) ((cp :: tp) ++ wnaf_end :: rp) tbl Q (power cp - 1) 0 1 [] tp o 0 (addend cp) HQ HT
        ltac:(lia) ltac:(lia)) as (r & Er & Hr).
      * apply (stream_start _ _ _ _ _ L2). exact I.
      * apply (stream_tail _ _ _ _ _ L1). lia.
      * apply isB_false'. unfold lin. rewrite emul_0, eadd_0_l. exact Ho.
      * exists r. split; [ exact Er | ]. replace (power cp - 1 + 1) with (power cp) in Hr by ring.
        cbn [dsum] in V1, V2, Hr. rewrite <- V1, <- V2. exact Hr.
  - change (znth ((cv :: tv) ++ wnaf_end :: rv) 0) with (Some cv). rewrite bind_Some. cbv beta.
    cbn [spaced] in P2. destruct (Hv cv tv eq_refl) as (m & Em & Hm). destruct (pniels_to_extended_ok _ _ Hm) as (o & Eo & Ho).
    destruct dp as [|cp tp].
    + change (znth ([] ++ wnaf_end :: rp) 0) with (Some wnaf_end). rewrite bind_Some. cbv beta. change (power wnaf_end) with (-1).
      destruct (Z.gtb_spec (power cv) (-1)); [ | lia ]. rewrite Em, bind_Some. cbv beta. rewrite Eo, !bind_Some. cbv beta iota.
      destruct (Z.ltb_spec (power cv) 0); [ lia | ].
      destruct (double_mul_loop_ok 500 ((cv :: tv) ++ wnaf_end :: rv) ([] ++ wnaf_end :: rp) tbl Q (power cv - 1) 1 0 tv [] o (addend cv) 0 HQ HT
        ltac:(lia) ltac:(lia)) as (r & Er & Hr).
      * apply (stream_tail _ _ _ _ _ L2). lia.
      * apply (stream_start _ _ _ _ _ L1). exact I.
      * apply isB_false'. unfold lin. rewrite emul_0, eadd_0_r. exact Ho.
      * exists r. split; [ exact Er | ]. replace (power cv - 1 + 1) with (power cv) in Hr by ring.
        cbn [dsum] in V1, V2, Hr. rewrite <- V1, <- V2. exact Hr.
    + change (znth ((cp :: tp) ++ wnaf_end :: rp) 0) with (Some cp). rewrite bind_Some. cbv beta. cbn [spaced] in P1.
      destruct (Hp' cp tp eq_refl) as (nn & En & Hn).
      destruct (Z.gtb_spec (power cv) (power cp)).
      * rewrite Em, bind_Some. cbv beta. rewrite Eo, !bind_Some. cbv beta iota.
        destruct (Z.ltb_spec (power cv) 0); [ lia | ].
        destruct (double_mul_loop_ok 500 ((cv :: tv) ++ wnaf_end :: rv) ((cp :: tp) ++ wnaf_end :: rp) tbl Q (power cv - 1) 1 0 tv (cp :: tp) o (addend cv) 0 HQ HT
          ltac:(lia) ltac:(lia)) as (r & Er & Hr).
        -- apply (stream_tail _ _ _ _ _ L2). lia.
        -- apply (stream_start _ _ _ _ _ L1). lia.
        -- apply isB_false'. unfold lin. rewrite emul_0, eadd_0_r. exact Ho.
        -- exists r. split; [ exact Er | ]. replace (power cv - 1 + 1) with (power cv) in Hr by ring.
           rewrite <- V1, <- V2. exact Hr.
      * destruct (Z.eqb_spec (power cv) (power cp)) as [EP|EP].
        -- destruct (Z.geb_spec (power cv) 0); [ | lia ]. cbn [andb]. rewrite Em, bind_Some. cbv beta. rewrite Eo, bind_Some. cbv beta.
           rewrite En, bind_Some. cbv beta.
           destruct (add_niels_ok o nn (negb (power cv =? 0)) _ _ Ho Hn) as (o2 & Eo2 & Ho2). rewrite Eo2, !bind_Some. cbv beta iota.
           destruct (Z.ltb_spec (power cv) 0); [ lia | ].
           destruct (double_mul_loop_ok 500 ((cv :: tv) ++ wnaf_end :: rv) ((cp :: tp) ++ wnaf_end :: rp) tbl Q (power cv - 1) 1 1 tv tp o2 (addend cv) (addend cp) HQ HT
             ltac:(lia) ltac:(lia)) as (r & Er & Hr).
           ++ apply (stream_tail _ _ _ _ _ L2). lia.
           ++ rewrite EP. apply (stream_tail _ _ _ _ _ L1). lia.
           ++ replace (power cv - 1 + 1) with (power cv) by ring. exact Ho2.
           ++ exists r. split; [ exact Er | ]. replace (power cv - 1 + 1) with (power cv) in Hr by ring.
              rewrite <- V1, <- V2. cbn [dsum]. rewrite <- EP. exact Hr.
        -- cbn [andb]. rewrite En, bind_Some. cbv beta. destruct (niels_to_extended_ok _ _ Hn) as (o' & Eo' & Ho'). rewrite Eo', !bind_Some. cbv beta iota.
           destruct (Z.ltb_spec (power cp) 0); [ lia | ].
           destruct (double_mul_loop_ok 500 ((cv :: tv) ++ wnaf_end :: rv) ((cp :: tp) ++ wnaf_end :: rp) tbl Q (power cp - 1) 0 1 (cv :: tv) tp o' 0 (addend cp) HQ HT
             ltac:(lia) ltac:(lia)) as (r & Er & Hr).
           ++ apply (stream_start _ _ _ _ _ L2). lia.
           ++ apply (stream_tail _ _ _ _ _ L1). lia.
           ++ apply isB_false'. unfold lin. rewrite emul_0, eadd_0_l. exact Ho'.
           ++ exists r. split; [ exact Er | ]. replace (power cp - 1 + 1) with (power cp) in Hr by ring.
              rewrite <- V1, <- V2. exact Hr.
Qed.
