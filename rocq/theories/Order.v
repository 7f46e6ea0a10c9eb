(* The base point has order q exactly, and 4 q P = 0 for every point P of the curve.  The second fact
   is by counting: a point is determined by y and the parity of x, so there are at most 2 p points,
   and 2 p < 12 q. *)
From Coq Require Import ZArith List Bool Lia Znumtheory Ring Field.
From Verif Require Import SpecField SpecScalar SpecCurve SpecDecode.
From Verif Require Import Field Edwards Isogeny CombMul BaseTables PrimeQ Decode Ed448.
Import ListNotations.
Open Scope Z_scope.

Lemma emul_coprime : forall P a b, on_curve P -> rel_prime a b -> emul a P = ezero -> emul b P = ezero -> P = ezero.
Proof.
  intros P a b HP R Ha Hb. destruct (rel_prime_bezout a b R) as [u v E].
  rewrite <- (emul_1 P). rewrite <- E. rewrite emul_add, !emul_mul, Ha, Hb, !emul_ezero by exact HP. apply eadd_0_l.
Qed.
Transparent ebase ezero.
Lemma ebase_nz : ebase <> ezero.
Proof.
  intro E. apply (f_equal (fun P => fval (snd P))) in E. unfold ebase, ezero, snd in E. rewrite fval_fone, fval_mkF in E.
  vm_compute in E. discriminate E.
Qed.
Opaque ebase ezero.
Theorem base_order : forall k, emul k ebase = ezero <-> (q448 | k).
Proof.
  intro k. split; intro H.
  - destruct (Zdivide_dec q448 k) as [|N]; [ assumption | exfalso ]. apply ebase_nz.
    apply (emul_coprime ebase q448 k ebase_on); [ | exact order_ok | exact H ]. apply prime_rel_prime; [ exact q448_prime | exact N ].
  - destruct H as (c & ->). rewrite emul_mul, order_ok by exact ebase_on. apply emul_ezero.
Qed.
Theorem base_inj : forall a b, emul a ebase = emul b ebase <-> a mod q448 = b mod q448.
Proof.
  intros a b. split; [ | apply base_cong ]. intro E.
  assert (Z : emul (a - b) ebase = ezero).
  { replace (a - b) with (a + - b) by ring. rewrite emul_add, emul_opp, E by exact ebase_on. apply eadd_neg. apply emul_on. exact ebase_on. }
  apply base_order in Z. destruct Z as (c & Hc). replace a with (b + c * q448) by lia. apply Z.mod_add. discriminate.
Qed.

(* the point (1, 0) of order 4 *)
Definition pt4 : ept := (fone, fzero).
Open Scope F_scope.
Lemma pt4_on : on_curve pt4.
Proof. unfold pt4, on_curve. ring. Qed.
Lemma pt4_2 : emul 2 pt4 = (0, - (1)).
Proof.
  rewrite emul_2 by exact pt4_on. Transparent eadd. unfold pt4, eadd. Opaque eadd. cbv zeta.
  f_equal; field; intro E; apply fone_nz; rewrite <- E; ring.
Qed.
Lemma pt4_2_on : on_curve (0, - (1)).
Proof. unfold on_curve. ring. Qed.
Lemma pt4_4 : emul 4 pt4 = ezero.
Proof.
  change 4%Z with (2 * 2)%Z. rewrite emul_mul, pt4_2 by exact pt4_on. rewrite emul_2 by exact pt4_2_on.
  Transparent eadd ezero. unfold eadd, ezero. Opaque eadd ezero. cbv zeta.
  f_equal; field; intro E; apply fone_nz; rewrite <- E; ring.
Qed.
Lemma pt4_odd : forall c, Z.odd c = true -> snd (emul c pt4) = 0.
Proof.
  intros c Hc. rewrite <- (emul_mod c 4 pt4 pt4_on pt4_4) by lia.
  pose proof (Z.mod_pos_bound c 4 ltac:(lia)) as R.
  assert (O : Z.odd (c mod 4) = true).
  { rewrite (Z.div_mod c 4) in Hc by lia. rewrite Z.odd_add_mul_even in Hc || (replace (4 * (c / 4) + c mod 4)%Z with (c mod 4 + 2 * (2 * (c / 4)))%Z in Hc by ring; rewrite Z.odd_add_mul_2 in Hc). exact Hc. }
  assert (C : (c mod 4 = 1 \/ c mod 4 = 3)%Z).
  { set (x := (c mod 4)%Z) in *. clearbody x. assert (x = 0 \/ x = 1 \/ x = 2 \/ x = 3)%Z as [->|[->|[->| ->]]] by lia; auto; discriminate O. }
  destruct C as [->| ->]; [ rewrite emul_1; reflexivity | ].
  change 3%Z with (Z.opp 1 + 4)%Z. rewrite emul_add, pt4_4, eadd_0_r, emul_opp, emul_1 by exact pt4_on.
  Transparent eneg. unfold pt4, eneg. Opaque eneg. reflexivity.
Qed.
Lemma double_y_nz : forall P, on_curve P -> snd (emul 2 P) <> 0.
Proof.
  intros (x, y) HP E. rewrite emul_2, (edouble x y HP) in E by exact HP. cbn [snd] in E.
  rewrite fdiv_def in E. apply fmul_zero in E. destruct E as [E|E].
  - exact (phi_t_nz x y HP E).
  - revert E. apply finv_nz. apply phi_w_nz. exact HP.
Qed.
Lemma pt4_zero : forall j, emul j pt4 = ezero -> (4 | j)%Z.
Proof.
  intros j H. destruct (Z.odd j) eqn:O.
  - exfalso. pose proof (pt4_odd j O) as E. rewrite H in E. Transparent ezero. cbn [ezero snd] in E. Opaque ezero. exact (fone_nz E).
  - assert (E : (j = 2 * (j / 2))%Z) by (pose proof (Z.div_mod j 2 ltac:(lia)) as D; rewrite Zmod_odd, O in D; lia).
    destruct (Z.odd (j / 2)) eqn:O2.
    + exfalso. assert (E2 : (j = 2 + (j / 2 / 2) * 4)%Z) by (pose proof (Z.div_mod (j / 2) 2 ltac:(lia)) as D; rewrite Zmod_odd, O2 in D; lia).
      rewrite E2, emul_add, emul_mul, pt4_4, emul_ezero, eadd_0_r, pt4_2 in H by exact pt4_on.
      apply (f_equal snd) in H. Transparent ezero. cbn [ezero snd] in H. Opaque ezero. exact (one_ne_mone (eq_sym H)).
    + exists (j / 2 / 2)%Z. pose proof (Z.div_mod (j / 2) 2 ltac:(lia)) as D. rewrite Zmod_odd, O2 in D. lia.
Qed.
Close Scope F_scope.

(* counting *)
Definition code (P : ept) : Z * bool := (fval (snd P), Z.odd (fval (fst P))).
Lemma code_inj : forall P Q, on_curve P -> on_curve Q -> code P = code Q -> P = Q.
Proof.
  intros (x1, y1) (x2, y2) H1 H2 E. unfold code in E. cbn [fst snd] in E.
  pose proof (f_equal fst E) as E1. pose proof (f_equal snd E) as E2. cbn [fst snd] in E1, E2.
  apply F_eq in E1. subst y2. f_equal.
  apply (candidate_unique y1 (Z.odd (fval x1))); apply curve_candidate; try assumption; intros _; congruence.
Qed.
Lemma nodup_map : forall (A B : Type) (f : A -> B) l, (forall x y, In x l -> In y l -> f x = f y -> x = y) -> NoDup l -> NoDup (map f l).
Proof.
  intros A B f l H N. induction N as [|x l Hx Hl IH]; [ constructor | ]. cbn [map]. constructor.
  - intro C. apply in_map_iff in C. destruct C as (y & E & Hy). apply Hx.
    rewrite (H x y); [ exact Hy | left; reflexivity | right; exact Hy | symmetry; exact E ].
  - apply IH. intros a b Ha Hb. apply H; right; assumption.
Qed.
Lemma nodup_prod : forall (A B : Type) (l : list A) (m : list B), NoDup l -> NoDup m -> NoDup (list_prod l m).
Proof.
  intros A B l m Hl Hm. induction Hl as [|x l Hx Hl IH]; [ constructor | ]. cbn [list_prod].
  assert (Happ : forall (u v : list (A * B)), NoDup u -> NoDup v -> (forall z, In z u -> ~ In z v) -> NoDup (u ++ v)).
  { induction u as [|z u IHu]; intros v Hu Hv D; [ exact Hv | ]. inversion Hu; subst. cbn [app]. constructor.
    - intro C. apply in_app_or in C. destruct C as [C|C]; [ contradiction | ]. apply (D z); [ left; reflexivity | exact C ].
    - apply IHu; auto. intros w Hw. apply D. right. exact Hw. }
  apply Happ; [ apply nodup_map; [ intros a b _ _ E; congruence | exact Hm ] | exact IH | ].
  intros (a, b) H1 H2. apply in_map_iff in H1. destruct H1 as (c & E & _). injection E as -> ->. apply in_prod_iff in H2. destruct H2. contradiction.
Qed.
Lemma count : forall (f : Z * Z * Z -> Z * bool) q p, 0 <= q -> 0 <= p ->
  (forall t, 0 <= fst (f t) < p) ->
  (forall i j k i' j' k', 0 <= i < q -> 0 <= i' < q -> 0 <= j < 4 -> 0 <= j' < 4 -> 0 <= k < 3 -> 0 <= k' < 3 ->
     f (i, j, k) = f (i', j', k') -> (i, j, k) = (i', j', k')) -> 12 * q <= 2 * p.
Proof.
  intros f q p Hq Hp Hf Hi.
  set (L := list_prod (list_prod (map Z.of_nat (seq 0 (Z.to_nat q))) [0; 1; 2; 3]) [0; 1; 2]).
  set (C := list_prod (map Z.of_nat (seq 0 (Z.to_nat p))) [true; false]).
  assert (NS : forall n, NoDup (map Z.of_nat (seq 0 n))).
  { intro n. apply nodup_map; [ intros; lia | apply seq_NoDup ]. }
  assert (NL : NoDup L).
  { unfold L. apply nodup_prod; [ apply nodup_prod; [ apply NS | ] | ].
    - repeat constructor; cbn; lia.
    - repeat constructor; cbn; lia. }
  assert (IL : forall i j k, In (i, j, k) L -> 0 <= i < q /\ 0 <= j < 4 /\ 0 <= k < 3).
  { intros i j k H. unfold L in H. apply in_prod_iff in H. destruct H as (H & Hk). apply in_prod_iff in H. destruct H as (H & Hj).
    apply in_map_iff in H. destruct H as (n & <- & Hn). apply in_seq in Hn. cbn in Hj, Hk. lia. }
  assert (NM : NoDup (map f L)).
  { apply nodup_map; [ | exact NL ]. intros ((i, j), k) ((i', j'), k') H1 H2 E. apply IL in H1. apply IL in H2. apply Hi; tauto. }
  assert (I : incl (map f L) C).
  { intros z Hz. apply in_map_iff in Hz. destruct Hz as (t & <- & _). specialize (Hf t). destruct (f t) as (a, b). cbn [fst] in Hf.
    unfold C. apply in_prod; [ | destruct b; cbn; auto ]. apply in_map_iff. exists (Z.to_nat a). split; [ lia | ]. apply in_seq. lia. }
  pose proof (NoDup_incl_length NM I) as N. unfold L, C in N. rewrite map_length, !prod_length, !map_length, !seq_length in N. cbn [length] in N. lia.
Qed.

Section Torsion.
Variable A : ept.
Hypothesis HA : on_curve A.
Definition spread (t : Z * Z * Z) : ept :=
  eadd (eadd (emul (fst (fst t)) ebase) (emul (snd (fst t)) pt4)) (emul (snd t) A).
Lemma spread_on : forall t, on_curve (spread t).
Proof. intro t. unfold spread. repeat apply eadd_on; apply emul_on; (exact ebase_on || exact pt4_on || exact HA). Qed.
(* difference of two combinations *)
Lemma spread_eq : forall i j k i' j' k', spread (i, j, k) = spread (i', j', k') ->
  emul (k' - k) A = eadd (emul (i - i') ebase) (emul (j - j') pt4).
Proof.
  intros i j k i' j' k' E. unfold spread in E. cbn [fst snd] in E.
  assert (OB : forall n, on_curve (emul n ebase)) by (intro; apply emul_on; exact ebase_on).
  assert (OT : forall n, on_curve (emul n pt4)) by (intro; apply emul_on; exact pt4_on).
  assert (OA : forall n, on_curve (emul n A)) by (intro; apply emul_on; exact HA).
  pose proof (spread_on (i', j', k)) as O1. unfold spread in O1. cbn [fst snd] in O1.
  apply (eadd_cancel_l _ _ _ O1); [ apply OA | apply eadd_on; auto | ].
  transitivity (eadd (eadd (emul i' ebase) (emul j' pt4)) (eadd (emul k A) (emul (k' - k) A))).
  { apply eadd_assoc; auto. apply eadd_on; auto. }
  rewrite <- emul_add by exact HA. replace (k + (k' - k)) with k' by ring. rewrite <- E.
  rewrite (eadd_comm (eadd (eadd (emul i' ebase) (emul j' pt4)) (emul k A))).
  transitivity (eadd (eadd (eadd (emul (i - i') ebase) (emul (j - j') pt4)) (eadd (emul i' ebase) (emul j' pt4))) (emul k A)).
  2:{ apply eadd_assoc; auto; apply eadd_on; auto. }
  f_equal. rewrite (four_swap (emul (i - i') ebase)) by auto. rewrite <- !emul_add by (exact ebase_on || exact pt4_on).
  f_equal; f_equal; ring.
Qed.
Lemma spread_double : forall a b, emul 2 A = eadd (emul a ebase) (emul b pt4) -> emul (4 * q448) A = ezero.
Proof.
  intros a b E. pose proof (emul_on q448 A HA) as HX.
  assert (E2 : emul 2 (emul q448 A) = emul (q448 * b) pt4).
  { rewrite <- emul_mul, Z.mul_comm, emul_mul, E by exact HA.
    rewrite emul_eadd by (apply emul_on; (exact ebase_on || exact pt4_on)).
    rewrite <- !emul_mul by (exact ebase_on || exact pt4_on). rewrite (Z.mul_comm q448 a), (emul_mul a q448) by exact ebase_on.
    rewrite order_ok, emul_ezero. apply eadd_0_l. }
  destruct (Z.odd (q448 * b)) eqn:O.
  - exfalso. apply (double_y_nz _ HX). rewrite E2. apply pt4_odd. exact O.
  - rewrite emul_mul by exact HA. change 4 with (2 * 2). rewrite emul_mul, E2 by exact HX.
    rewrite <- emul_mul by exact pt4_on. pose proof (Z.div_mod (q448 * b) 2 ltac:(lia)) as D. rewrite Zmod_odd, O in D.
    replace (2 * (q448 * b)) with (q448 * b / 2 * 4) by lia. rewrite emul_mul, pt4_4 by exact pt4_on. apply emul_ezero.
Qed.
Lemma spread_inj : emul (4 * q448) A <> ezero -> forall i j k i' j' k',
  0 <= i < q448 -> 0 <= i' < q448 -> 0 <= j < 4 -> 0 <= j' < 4 -> 0 <= k < 3 -> 0 <= k' < 3 ->
  code (spread (i, j, k)) = code (spread (i', j', k')) -> (i, j, k) = (i', j', k').
Proof.
  intros N i j k i' j' k' Hi Hi' Hj Hj' Hk Hk' E. apply code_inj in E; [ | apply spread_on | apply spread_on ].
  assert (M : forall i j k i' j' k', spread (i, j, k) = spread (i', j', k') -> 0 <= k < 3 -> 0 <= k' < 3 -> k' <= k).
  { clear - N HA. intros i j k i' j' k' E Hk Hk'. apply Z.nlt_ge. intro L. apply N. apply spread_eq in E.
    assert (C : k' - k = 1 \/ k' - k = 2) by lia. destruct C as [C|C]; rewrite C in E.
    - rewrite emul_1 in E. apply (spread_double (2 * (i - i')) (2 * (j - j'))).
      rewrite E at 1. rewrite emul_eadd by (apply emul_on; (exact ebase_on || exact pt4_on)).
      rewrite <- !emul_mul by (exact ebase_on || exact pt4_on). reflexivity.
    - exact (spread_double _ _ E). }
  assert (k = k') by (pose proof (M _ _ _ _ _ _ E Hk Hk'); pose proof (M _ _ _ _ _ _ (eq_sym E) Hk' Hk); lia). subst k'.
  clear M. apply spread_eq in E. rewrite Z.sub_diag, emul_0 in E.
  assert (E4 : emul (4 * (i - i')) ebase = ezero).
  { pose proof (f_equal (emul 4) E) as K. rewrite emul_ezero, emul_eadd in K by (apply emul_on; (exact ebase_on || exact pt4_on)).
    rewrite <- (emul_mul 4 (j - j')), (Z.mul_comm 4 (j - j')), (emul_mul (j - j') 4), pt4_4, emul_ezero, eadd_0_r in K by exact pt4_on.
    rewrite emul_mul by exact ebase_on. symmetry. exact K. }
  apply base_order in E4. apply Gauss in E4; [ | apply prime_rel_prime; [ exact q448_prime | ] ].
  2:{ intro D. apply Z.divide_pos_le in D; [ | lia ]. revert D. vm_compute. intro D. apply D. reflexivity. }
  assert (i = i').
  { destruct E4 as (c & Hc). clear - Hi Hi' Hc. set (q := q448) in *. clearbody q. assert (c = 0) by nia. subst c. lia. }
  subst i'. rewrite Z.sub_diag, emul_0, eadd_0_l in E. symmetry in E. apply pt4_zero in E. destruct E as (c & Hc).
  assert (j = j') by lia. subst j'. reflexivity.
Qed.
Theorem order_4q_sec : emul (4 * q448) A = ezero.
Proof.
  assert (D : forall P Q : ept, {P = Q} + {P <> Q}).
  { intros (a, b) (c, d). destruct (F_dec a c) as [->|N]; [ destruct (F_dec b d) as [->|N] | ]; [ left; reflexivity | right; intro E; apply N .. ].
    - exact (f_equal snd E).
    - exact (f_equal fst E). }
  destruct (D (emul (4 * q448) A) ezero) as [E|N]; [ exact E | exfalso ].
  assert (C : 12 * q448 <= 2 * p448).
  { apply (count (fun t => code (spread t))); [ | | intro t; apply fval_range | exact (spread_inj N) ]; vm_compute; discriminate. }
  revert C. vm_compute. intro C. apply C. reflexivity.
Qed.
End Torsion.
Theorem order_4q : forall A, on_curve A -> emul (4 * q448) A = ezero.
Proof. exact order_4q_sec. Qed.
Lemma cong_4q : forall a b A, on_curve A -> (a - b) mod (4 * q448) = 0 -> emul a A = emul b A.
Proof.
  intros a b A HA H. apply Zmod_divide in H; [ | discriminate ]. destruct H as (c & Hc).
  replace a with (b + c * (4 * q448)) by lia. rewrite emul_add, emul_mul, order_4q, emul_ezero by exact HA. apply eadd_0_r.
Qed.
