(* The table of odd multiples, for every table and every size. *)
From Coq Require Import ZArith List Bool Lia.
From Verif Require Import SpecField SpecScalar SpecCurve SpecInternal Base Arith Bytes Constants32 ScalarModel Niels WnafTable ExtendedPoint Prepare
  ScalarProofs Field FieldOps Edwards Isogeny PointOps PointMul CombMul BaseTables Recode DoubleMul Internal.
Import ListNotations.
Open Scope Z_scope.

Lemma zupd_0 : forall (A : Type) (a : A) t v, zupd (a :: t) 0 v = Some (v :: t).
Proof. intros A a t v. unfold zupd. cbn [length]. rewrite (proj2 (Z.ltb_lt _ _)) by lia. reflexivity. Qed.
Lemma zupd_1 : forall (A : Type) (a b : A) t v, zupd (a :: b :: t) 1 v = Some (a :: v :: t).
Proof. intros A a b t v. unfold zupd. cbn [length]. rewrite (proj2 (Z.ltb_lt _ _)) by lia. reflexivity. Qed.
Lemma znth_0 : forall (A : Type) (a : A) t, znth (a :: t) 0 = Some a.
Proof. intros A a t. unfold znth. cbn [length]. rewrite (proj2 (Z.ltb_lt _ _)) by lia. reflexivity. Qed.
Lemma shl_one_ok : forall ts, 0 <= ts < 64 -> shl_one ts = Some (2 ^ ts).
Proof.
  intros ts H. unfold shl_one. rewrite (proj2 (Z.leb_le _ _)), (proj2 (Z.ltb_lt _ _)) by lia. cbn [andb]. unfold shl64, wrap64.
  change 0xffffffffffffffff with (Z.ones 64). rewrite Z.land_ones by lia. rewrite Z.shiftl_1_l. rewrite Z.mod_small; [ reflexivity | ].
  split; [ apply Z.pow_nonneg; lia | apply Z.pow_lt_mono_r; lia ].
Qed.
Lemma fill_ok : forall n rest p step k Q, on_curve Q -> isP p (emul k Q) -> isPN step (emul 2 Q) ->
  exists l p', fill n rest p step = Some (l, p') /\ length l = length rest /\
    (forall i e, (i < n)%nat -> nth_error l i = Some e -> isPN e (emul (k + 2 * (Z.of_nat i + 1)) Q)) /\
    (forall i, (n <= i)%nat -> nth_error l i = nth_error rest i) /\
    isP p' (emul (k + 2 * Z.of_nat (Nat.min n (length rest))) Q).
Proof.
  induction n as [|n IH]; intros rest p step k Q HQ Hp Hs.
  - exists rest, p. cbn [fill Nat.min]. split; [ reflexivity | ]. split; [ reflexivity | ]. split; [ intros; lia | ]. split; [ reflexivity | ]. rewrite Z.add_0_r. exact Hp.
  - destruct rest as [|x rest]; cbn [fill].
    { exists [], p. split; [ reflexivity | ]. split; [ reflexivity | ]. split; [ intros [|i] e _ E; discriminate E | ]. split; [ reflexivity | ]. cbn [length Nat.min]. rewrite Z.add_0_r. exact Hp. }
    destruct (add_pniels_ok p step false _ _ Hp Hs) as (p' & E & H). rewrite E, bind_Some. cbv beta.
    apply isB_false in H. rewrite <- emul_add in H by exact HQ.
    destruct (to_pniels_ok p' _ H) as (e & Ee & He). rewrite Ee, bind_Some. cbv beta.
    destruct (IH rest p' step (k + 2) Q HQ H Hs) as (l & p2 & El & Ll & Hl & Hr & H2). rewrite El, bind_Some. cbv beta iota.
    exists (e :: l), p2. split; [ reflexivity | ]. split; [ cbn [length]; lia | ]. split; [ | split ].
    + intros [|i] e' Hi E'; cbn [nth_error] in E'; [ injection E' as <-; exact He | ].
      replace (k + 2 * (Z.of_nat (S i) + 1)) with (k + 2 + 2 * (Z.of_nat i + 1)) by lia. apply Hl; [ lia | exact E' ].
    + intros [|i] Hi; [ lia | ]. cbn [nth_error]. apply Hr. lia.
    + cbn [length]. replace (k + 2 * Z.of_nat (Nat.min (S n) (S (length rest)))) with (k + 2 + 2 * Z.of_nat (Nat.min n (length rest))) by (cbn [Nat.min]; lia). exact H2.
Qed.
Theorem table : forall dst p ts Q, represents p Q -> 0 <= ts < 64 -> (if ts =? 0 then (1 <= length dst)%nat else (2 <= length dst)%nat) ->
  exists dst' p', prepare_table dst p ts = Some (dst', p') /\ length dst' = length dst /\
    (forall i e, Z.of_nat i < 2 ^ ts -> nth_error dst' i = Some e -> projective_entry e (emul (2 * Z.of_nat i + 1) Q)) /\
    (forall i, 2 ^ ts <= Z.of_nat i -> nth_error dst' i = nth_error dst i) /\
    represents p' (emul (2 * Z.min (2 ^ ts) (Z.of_nat (length dst)) - 1) Q).
Proof.
  intros dst p ts Q HP HT HL. rewrite rep_iff in HP. rename HP into Hp. pose proof (isP_on _ _ Hp) as HQ. unfold prepare_table.
  destruct (to_pniels_ok p _ Hp) as (e & Ee & He). rewrite Ee, bind_Some. cbv beta. rewrite <- (emul_1 Q) in He.
  destruct (Z.eqb_spec ts 0) as [ -> | NT ].
  { destruct dst as [ | x t ]; [ exfalso; cbn [length] in HL; lia | ]. rewrite zupd_0, bind_Some. cbv beta. exists (e :: t), p. split; [ reflexivity | ]. split; [ reflexivity | ].
    change (2 ^ 0) with 1. split; [ | split ].
    - intros [|i] e' Hi E; [ | lia ]. cbn [nth_error] in E. injection E as <-. rewrite pentry_iff. exact He.
    - intros [|i] Hi; [ lia | reflexivity ].
    - rewrite Z.min_l by (cbn [length]; lia). change (2 * 1 - 1) with 1. rewrite rep_iff, emul_1. exact Hp. }
  destruct dst as [ | x [ | y t ] ]; [ exfalso; cbn [length] in HL; lia | exfalso; cbn [length] in HL; lia | ]. rewrite zupd_0, bind_Some. cbv beta.
  destruct (double_ok p false Q (proj1 Hp)) as (p2 & E2 & H2). rewrite E2, bind_Some. cbv beta.
  apply isB_false in H2. rewrite <- emul_2 in H2 by exact HQ.
  destruct (to_pniels_ok p2 _ H2) as (st & Es & Hs). rewrite Es, bind_Some. cbv beta.
  rewrite znth_0, bind_Some. cbv beta.
  destruct (add_pniels_ok p2 e false _ _ H2 He) as (p3 & E3 & H3). rewrite E3, bind_Some. cbv beta.
  apply isB_false in H3. rewrite <- emul_add in H3 by exact HQ. change (2 + 1) with 3 in H3.
  destruct (to_pniels_ok p3 _ H3) as (e3 & Ee3 & He3). rewrite Ee3, bind_Some. cbv beta.
  rewrite zupd_1, bind_Some. cbv beta. rewrite (shl_one_ok ts HT), bind_Some. cbv beta. cbn [skipn firstn].
  assert (P2 : 2 <= 2 ^ ts) by (change 2 with (2 ^ 1) at 1; apply Z.pow_le_mono_r; lia). generalize dependent (2 ^ ts). intros m P2.
  set (n := Z.to_nat (Z.min (m - 2) (Z.of_nat (length (e :: e3 :: t))))).
  destruct (fill_ok n t p3 st 3 Q HQ H3 Hs) as (l & p4 & El & Ll & Hl & Hr & H4). rewrite El, bind_Some. cbv beta iota.
  exists (e :: e3 :: l), p4. split; [ reflexivity | ]. split; [ cbn [length]; lia | ].
  assert (LN : Nat.min n (length t) = Z.to_nat (Z.min (m - 2) (Z.of_nat (length t)))) by (unfold n; cbn [length]; lia).
  split; [ | split ].
  - intros [|[|i]] e' Hi E; cbn [nth_error] in E; rewrite pentry_iff; [ injection E as <-; exact He | injection E as <-; exact He3 | ].
    replace (2 * Z.of_nat (S (S i)) + 1) with (3 + 2 * (Z.of_nat i + 1)) by lia. apply Hl; [ | exact E ].
    assert (i < length l)%nat by (apply nth_error_Some; rewrite E; discriminate). unfold n. cbn [length]. lia.
  - intros [|[|i]] Hi; [ lia | lia | ]. cbn [nth_error]. apply Hr. unfold n. lia.
  - rewrite rep_iff. rewrite LN in H4. cbn [length]. replace (2 * Z.min m (Z.of_nat (S (S (length t)))) - 1) with (3 + 2 * Z.of_nat (Z.to_nat (Z.min (m - 2) (Z.of_nat (length t))))) by lia. exact H4.
Qed.
Lemma bind_none : forall (A B : Type) (x : option A), bind x (fun _ => @None B) = None.
Proof. intros A B [ | ]; reflexivity. Qed.
Theorem panics : forall dst p ts, (length dst = 0%nat \/ ts <> 0 /\ length dst = 1%nat \/ ts < 0 \/ 64 <= ts) -> prepare_table dst p ts = None.
Proof.
  intros dst p ts H. unfold prepare_table. destruct (to_projected_niels p) as [ e | ]; [ rewrite bind_Some; cbv beta | reflexivity ].
  destruct dst as [ | x t ]; [ reflexivity | ]. rewrite zupd_0, bind_Some. cbv beta.
  destruct (Z.eqb_spec ts 0) as [ -> | NT ]; [ exfalso; cbn [length] in H; destruct H as [ H | [ ( H & _ ) | [ H | H ] ] ]; [ discriminate H | apply H; reflexivity | lia | lia ] | ].
  destruct (double_internal p false) as [ p2 | ]; [ rewrite bind_Some; cbv beta | reflexivity ]. destruct (to_projected_niels p2) as [ st | ]; [ rewrite bind_Some; cbv beta | reflexivity ].
  rewrite znth_0, bind_Some. cbv beta. destruct (add_projected_niels_to_extended p2 e false) as [ p3 | ]; [ rewrite bind_Some; cbv beta | reflexivity ].
  destruct (to_projected_niels p3) as [ e3 | ]; [ rewrite bind_Some; cbv beta | reflexivity ].
  destruct t as [ | y t ]; [ reflexivity | ]. rewrite zupd_1, bind_Some. cbv beta.
  assert (E : shl_one ts = None); [ | rewrite E; reflexivity ]. unfold shl_one. cbn [length] in H.
  destruct H as [ H | [ ( _ & H ) | [ H | H ] ] ]; [ discriminate H | discriminate H | | ].
  - rewrite (proj2 (Z.leb_gt _ _)) by lia. reflexivity.
  - rewrite (proj2 (Z.ltb_ge _ 64)) by lia. rewrite andb_false_r. reflexivity.
Qed.
Lemma fill_loop : forall n rest p st, length rest = n -> match fill n rest p st with Some (l, _) => Some l | None => None end = wnaf_loop n p st.
Proof.
  induction n as [|n IH]; intros rest p st L; destruct rest as [|x rest]; try discriminate L; [ reflexivity | ]. injection L as L. cbn [fill wnaf_loop].
  destruct (add_projected_niels_to_extended p st false) as [ p1 | ]; [ rewrite !bind_Some; cbv beta | reflexivity ]. destruct (to_projected_niels p1) as [ e | ]; [ rewrite !bind_Some; cbv beta | reflexivity ].
  rewrite <- (IH rest p1 st L). destruct (fill n rest p1 st) as [ (l, p2) | ]; reflexivity.
Qed.
Theorem only_call : forall dst p, length dst = 8%nat -> match prepare_table dst p 3 with Some (l, _) => Some l | None => None end = decaf_prepare_wnaf_table p.
Proof.
  intros dst p L. unfold prepare_table, decaf_prepare_wnaf_table. destruct (to_projected_niels p) as [ e | ]; [ rewrite !bind_Some; cbv beta | reflexivity ].
  destruct dst as [ | x [ | y t ] ]; try discriminate L. injection L as L. rewrite zupd_0, bind_Some. cbv beta. change (3 =? 0) with false. cbv iota.
  destruct (double_internal p false) as [ p2 | ]; [ rewrite !bind_Some; cbv beta | reflexivity ]. destruct (to_projected_niels p2) as [ st | ]; [ rewrite !bind_Some; cbv beta | reflexivity ].
  rewrite znth_0, bind_Some. cbv beta. destruct (add_projected_niels_to_extended p2 e false) as [ p3 | ]; [ rewrite !bind_Some; cbv beta | reflexivity ].
  destruct (to_projected_niels p3) as [ e3 | ]; [ rewrite !bind_Some; cbv beta | reflexivity ].
  rewrite zupd_1, bind_Some. cbv beta. rewrite (shl_one_ok 3) by lia. rewrite bind_Some. cbv beta. cbn [skipn firstn length]. rewrite L.
  change (Z.to_nat (Z.min (2 ^ 3 - 2) (Z.of_nat 8))) with 6%nat. rewrite <- (fill_loop 6 t p3 st L). destruct (fill 6 t p3 st) as [ (l, p4) | ]; reflexivity.
Qed.
