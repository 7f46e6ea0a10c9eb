(* The points of edwards448 form a commutative group under [eadd]. *)
From Coq Require Import ZArith List Bool Lia Ring Field.
From Verif Require Import SpecField SpecCurve Field.
Import ListNotations.
Open Scope Z_scope.
Open Scope F_scope.

(* the identities behind associativity; c = 1/d *)
Section Identities.
Variables c x1 y1 x2 y2 x3 y3 : Fp.
Hypothesis H1 : x1 * x1 * y1 * y1 = c * (x1 * x1 + y1 * y1 - 1).
Hypothesis H2 : x2 * x2 * y2 * y2 = c * (x2 * x2 + y2 * y2 - 1).
Hypothesis H3 : x3 * x3 * y3 * y3 = c * (x3 * x3 + y3 * y3 - 1).
Let p12 := x1 * x2 * y1 * y2.
Let u12 := x1 * y2 + x2 * y1.
Let v12 := y1 * y2 - x1 * x2.
Let p23 := x2 * x3 * y2 * y3.
Let u23 := x2 * y3 + x3 * y2.
Let v23 := y2 * y3 - x2 * x3.
Lemma closed_id : c * c * (u12 * u12 * ((c - p12) * (c - p12)) + v12 * v12 * ((c + p12) * (c + p12)))
  = (c + p12) * (c + p12) * ((c - p12) * (c - p12)) + c * (c * c) * (u12 * u12 * (v12 * v12)).
Proof. unfold u12, v12, p12. ring [H1 H2]. Qed.
Lemma assoc_x :
  (u12 * (c - p12) * y3 + v12 * (c + p12) * x3) * ((c + p23) * (c - p23) + c * x1 * y1 * u23 * v23)
  = (x1 * v23 * (c + p23) + y1 * u23 * (c - p23)) * ((c + p12) * (c - p12) + c * x3 * y3 * u12 * v12).
Proof. unfold p12, u12, v12, p23, u23, v23. ring [H1 H2 H3]. Qed.
Lemma assoc_y :
  (v12 * (c + p12) * y3 - u12 * (c - p12) * x3) * ((c + p23) * (c - p23) - c * x1 * y1 * u23 * v23)
  = (y1 * v23 * (c + p23) - x1 * u23 * (c - p23)) * ((c + p12) * (c - p12) - c * x3 * y3 * u12 * v12).
Proof. unfold p12, u12, v12, p23, u23, v23. ring [H1 H2 H3]. Qed.
End Identities.

Lemma fone_nz : 1 <> 0.
Proof. apply (mkF_nz 1). discriminate. Qed.
Lemma mul_scale : forall c a b a' b', a * b' = a' * b -> (c * a) * b' = (c * a') * b.
Proof. intros c a b a' b' H. transitivity (c * (a * b')); [ ring | rewrite H; ring ]. Qed.
Lemma div_eq : forall a b a' b', b <> 0 -> b' <> 0 -> a * b' = a' * b -> a / b = a' / b'.
Proof.
  intros a b a' b' Hb Hb' H.
  replace (a / b) with ((a * b') / (b * b')) by (field; auto).
  rewrite H. field. auto.
Qed.
Lemma div_nz : forall a b, a / b <> 0 -> a <> 0.
Proof. intros a b H E. apply H. rewrite E, fdiv_def. ring. Qed.

(* d is not a square: 39081 is one, and -1 is not *)
Definition SQRT39081 : Z :=
  627894490647874670780146803011075515225223784391788159207390309582568626050729514829594252134780030556161172229750791477826575600769225.
Lemma sqrt39081_ok : mkF SQRT39081 * mkF SQRT39081 = - ecd.
Proof. rewrite <- mkF_mul. unfold ecd. rewrite <- mkF_opp. apply mkF_eq. vm_compute. reflexivity. Qed.
Lemma sqrt39081_nz : mkF SQRT39081 <> 0.
Proof. apply mkF_nz. vm_compute. discriminate. Qed.
Lemma ecd_nz : ecd <> 0.
Proof. apply mkF_nz. vm_compute. discriminate. Qed.
Lemma ecd_nonsquare : ~ is_square ecd.
Proof.
  intros (r & Hr). apply mone_nonsquare.
  apply (square_quot (- ecd)).
  - rewrite <- sqrt39081_ok. apply fmul_nz; exact sqrt39081_nz.
  - exists (mkF SQRT39081). exact sqrt39081_ok.
  - exists r. rewrite Hr. ring.
Qed.
(* 1 - d = 39082 is not a square either *)
Definition SQRTM39082 : Z :=
  53931230830471128485834955405575080614406917727690396148695844614693367092499110851330350603979079659962871539650022903565748232560454.
Lemma sqrtm39082_ok : mkF SQRTM39082 * mkF SQRTM39082 = ecd - 1.
Proof. rewrite <- mkF_mul. unfold ecd. change 1 with (mkF 1). rewrite <- mkF_sub. apply mkF_eq. vm_compute. reflexivity. Qed.
Lemma ecd_m1_nz : ecd - 1 <> 0.
Proof. unfold ecd. change 1 with (mkF 1). rewrite <- mkF_sub. apply mkF_nz. vm_compute. discriminate. Qed.
Lemma one_m_ecd_nonsquare : ~ is_square (1 - ecd).
Proof.
  intros (r & Hr). apply mone_nonsquare.
  apply (square_quot (ecd - 1)).
  - exact ecd_m1_nz.
  - exists (mkF SQRTM39082). exact sqrtm39082_ok.
  - exists r. rewrite Hr. ring.
Qed.

Global Opaque ecd.
(* 1/d; sealed, so that conversion never evaluates the inverse *)
Lemma ecc_ex : { c : Fp | c * ecd = 1 }.
Proof. exists (1 / ecd). field. exact ecd_nz. Qed.
Definition ecc : Fp := proj1_sig ecc_ex.
Lemma ecc_d : ecc * ecd = 1.
Proof. exact (proj2_sig ecc_ex). Qed.
Global Opaque ecc.
Lemma ecc_nz : ecc <> 0.
Proof. intro E. pose proof ecc_d as H. rewrite E in H. apply fone_nz. rewrite <- H. ring. Qed.
Lemma on_curve_c : forall x y, on_curve (x, y) -> x * x * y * y = ecc * (x * x + y * y - 1).
Proof. intros x y H. unfold on_curve in H. rewrite H. replace (ecc * (1 + ecd * (x * x * (y * y)) - 1)) with ((ecc * ecd) * (x * x * y * y)) by ring. rewrite ecc_d. ring. Qed.
Lemma c_on_curve : forall x y, x * x * y * y = ecc * (x * x + y * y - 1) -> on_curve (x, y).
Proof.
  intros x y H. unfold on_curve. replace (x * x * (y * y)) with (x * x * y * y) by ring. rewrite H.
  replace (1 + ecd * (ecc * (x * x + y * y - 1))) with (1 + (ecc * ecd) * (x * x + y * y - 1)) by ring.
  rewrite ecc_d. ring.
Qed.

(* completeness *)
Lemma complete_aux : forall x1 y1 x2 y2 e, on_curve (x1, y1) -> on_curve (x2, y2) ->
  ecd * (x1 * x2 * (y1 * y2)) = e -> e * e = 1 -> False.
Proof.
  intros x1 y1 x2 y2 e H1 H2 He Hee. unfold on_curve in H1, H2.
  assert (K1 : x1 * x1 + y1 * y1 = ecd * (x1 * x1 * (y1 * y1)) * (x2 * x2 + y2 * y2)).
  { rewrite H2.
    replace (ecd * (x1 * x1 * (y1 * y1)) * (1 + ecd * (x2 * x2 * (y2 * y2))))
      with (ecd * (x1 * x1 * (y1 * y1)) + (ecd * (x1 * x2 * (y1 * y2))) * (ecd * (x1 * x2 * (y1 * y2)))) by ring.
    rewrite He, Hee, H1. ring. }
  assert (N1 : x1 * y1 <> 0).
  { intro E. apply fone_nz. rewrite <- Hee, <- He.
    replace (x1 * x2 * (y1 * y2)) with (x1 * y1 * (x2 * y2)) by ring. rewrite E. ring. }
  assert (S : forall t s, t * t = ecd * ((x1 * y1) * (x1 * y1)) * (s * s) -> s <> 0 -> False).
  { intros t s Ht Hs. apply ecd_nonsquare. exists (t / (x1 * y1 * s)).
    assert (x1 * y1 * s <> 0) by (apply fmul_nz; assumption).
    replace (t / (x1 * y1 * s) * (t / (x1 * y1 * s))) with ((t * t) / ((x1 * y1 * s) * (x1 * y1 * s))).
    - rewrite Ht. field. apply fmul_nz_inv in N1. split; [ exact Hs | ]. destruct N1; auto.
    - field. apply fmul_nz_inv in N1. split; [ exact Hs | ]. destruct N1; auto. }
  destruct (F_dec (x2 + y2) 0) as [Z1|Z1].
  - destruct (F_dec (x2 - y2) 0) as [Z2|Z2].
    + assert (X0 : mkF 2 * x2 = 0).
      { replace (mkF 2 * x2) with (x2 + y2 + (x2 - y2)) by ring. rewrite Z1, Z2. ring. }
      assert (x2 = 0).
      { apply fmul_zero in X0. destruct X0 as [X0|X0]; [ | exact X0 ]. exfalso. apply two_nz. exact X0. }
      apply fone_nz. rewrite <- Hee, <- He, H. ring.
    + apply (S (x1 - e * y1) (x2 - y2)); [ | exact Z2 ].
      replace ((x1 - e * y1) * (x1 - e * y1)) with (x1 * x1 + e * e * (y1 * y1) - mkF 2 * (x1 * y1) * e) by ring.
      rewrite Hee. replace (x1 * x1 + 1 * (y1 * y1)) with (x1 * x1 + y1 * y1) by ring. rewrite K1, <- He. ring.
  - apply (S (x1 + e * y1) (x2 + y2)); [ | exact Z1 ].
    replace ((x1 + e * y1) * (x1 + e * y1)) with (x1 * x1 + e * e * (y1 * y1) + mkF 2 * (x1 * y1) * e) by ring.
    rewrite Hee. replace (x1 * x1 + 1 * (y1 * y1)) with (x1 * x1 + y1 * y1) by ring. rewrite K1, <- He. ring.
Qed.
Lemma complete : forall x1 y1 x2 y2, on_curve (x1, y1) -> on_curve (x2, y2) ->
  1 + ecd * (x1 * x2 * (y1 * y2)) <> 0 /\ 1 - ecd * (x1 * x2 * (y1 * y2)) <> 0.
Proof.
  intros x1 y1 x2 y2 H1 H2. split; intro E.
  - apply (complete_aux x1 y1 x2 y2 (- (1)) H1 H2); [ | ring ].
    replace (ecd * (x1 * x2 * (y1 * y2))) with (1 + ecd * (x1 * x2 * (y1 * y2)) - 1) by ring. rewrite E. ring.
  - apply (complete_aux x1 y1 x2 y2 1 H1 H2); [ | ring ].
    replace (ecd * (x1 * x2 * (y1 * y2))) with (1 - (1 - ecd * (x1 * x2 * (y1 * y2)))) by ring. rewrite E. ring.
Qed.
Lemma complete_c : forall x1 y1 x2 y2, on_curve (x1, y1) -> on_curve (x2, y2) ->
  ecc + x1 * x2 * y1 * y2 <> 0 /\ ecc - x1 * x2 * y1 * y2 <> 0.
Proof.
  intros x1 y1 x2 y2 H1 H2. destruct (complete x1 y1 x2 y2 H1 H2) as (A & B).
  split; intro E; [ apply A | apply B ].
  - replace (1 + ecd * (x1 * x2 * (y1 * y2))) with (1 - ecc * ecd + ecd * (ecc + x1 * x2 * y1 * y2)) by ring.
    rewrite E, ecc_d. ring.
  - replace (1 - ecd * (x1 * x2 * (y1 * y2))) with (1 - ecc * ecd + ecd * (ecc - x1 * x2 * y1 * y2)) by ring.
    rewrite E, ecc_d. ring.
Qed.

(* the sum written with c = 1/d *)
Lemma eadd_c : forall x1 y1 x2 y2, on_curve (x1, y1) -> on_curve (x2, y2) ->
  eadd (x1, y1) (x2, y2) =
  (ecc * (x1 * y2 + x2 * y1) / (ecc + x1 * x2 * y1 * y2), ecc * (y1 * y2 - x1 * x2) / (ecc - x1 * x2 * y1 * y2)).
Proof.
  intros x1 y1 x2 y2 H1 H2. destruct (complete x1 y1 x2 y2 H1 H2) as (A & B).
  destruct (complete_c x1 y1 x2 y2 H1 H2) as (A' & B').
  unfold eadd. f_equal; apply div_eq; auto.
  - ring [ecc_d].
  - ring [ecc_d].
Qed.

Lemma eadd_on : forall P Q, on_curve P -> on_curve Q -> on_curve (eadd P Q).
Proof.
  intros (x1, y1) (x2, y2) H1 H2. rewrite eadd_c by assumption.
  destruct (complete_c x1 y1 x2 y2 H1 H2) as (A & B).
  apply on_curve_c in H1. apply on_curve_c in H2.
  pose proof (closed_id ecc x1 y1 x2 y2 H1 H2) as K. cbv zeta in K.
  apply c_on_curve.
  set (p := x1 * x2 * y1 * y2) in *. set (u := x1 * y2 + x2 * y1) in *. set (v := y1 * y2 - x1 * x2) in *.
  clearbody p u v. clear H1 H2.
  assert (ecc <> 0) by exact ecc_nz. generalize dependent ecc. intros c A B K Hc.
  transitivity (c * ((c * c * (u * u * ((c - p) * (c - p)) + v * v * ((c + p) * (c + p))) -
     (c + p) * (c + p) * ((c - p) * (c - p))) / ((c + p) * (c + p) * ((c - p) * (c - p))))).
  - rewrite K. field. auto.
  - field. auto.
Qed.
Lemma eadd_comm : forall P Q, eadd P Q = eadd Q P.
Proof. intros (x1, y1) (x2, y2). unfold eadd. f_equal; f_equal; ring. Qed.
Lemma ezero_on : on_curve ezero.
Proof. unfold ezero, on_curve. ring. Qed.
Lemma fdiv_1 : forall x, x / 1 = x.
Proof. intro x. field. apply fone_nz. Qed.
Lemma eadd_0_l : forall P, eadd ezero P = P.
Proof.
  intros (x, y). unfold ezero, eadd.
  replace (1 + ecd * (0 * x * (1 * y))) with 1 by ring. replace (1 - ecd * (0 * x * (1 * y))) with 1 by ring.
  rewrite !fdiv_1. f_equal; ring.
Qed.
Lemma eadd_0_r : forall P, eadd P ezero = P.
Proof. intro P. rewrite eadd_comm. apply eadd_0_l. Qed.
Lemma eneg_on : forall P, on_curve P -> on_curve (eneg P).
Proof. intros (x, y) H. unfold on_curve, eneg in *. transitivity (x * x + y * y); [ ring | rewrite H; ring ]. Qed.
Lemma eneg_neg : forall P, eneg (eneg P) = P.
Proof. intros (x, y). unfold eneg. f_equal. ring. Qed.
Lemma eadd_neg : forall P, on_curve P -> eadd P (eneg P) = ezero.
Proof.
  intros (x, y) H. unfold eneg, eadd, ezero.
  destruct (complete x y (- x) y H (eneg_on (x, y) H)) as (A & B).
  f_equal.
  - rewrite fdiv_def. ring.
  - replace (y * y - x * - x) with (1 - ecd * (x * - x * (y * y))).
    + field. exact B.
    + unfold on_curve in H. transitivity (x * x + y * y); [ rewrite H; ring | ring ].
Qed.
Lemma eadd_neg_l : forall P, on_curve P -> eadd (eneg P) P = ezero.
Proof. intros P H. rewrite eadd_comm. apply eadd_neg. exact H. Qed.

Lemma eadd_assoc : forall P Q R, on_curve P -> on_curve Q -> on_curve R ->
  eadd (eadd P Q) R = eadd P (eadd Q R).
Proof.
  intros P Q R HP HQ HR.
  pose proof (eadd_on P Q HP HQ) as HPQ. pose proof (eadd_on Q R HQ HR) as HQR.
  destruct P as (x1, y1). destruct Q as (x2, y2). destruct R as (x3, y3).
  rewrite (eadd_c x1 y1 x2 y2 HP HQ) in *. rewrite (eadd_c x2 y2 x3 y3 HQ HR) in *.
  rewrite (eadd_c _ _ x3 y3 HPQ HR). rewrite (eadd_c x1 y1 _ _ HP HQR).
  destruct (complete_c x1 y1 x2 y2 HP HQ) as (A1 & A2).
  destruct (complete_c x2 y2 x3 y3 HQ HR) as (B1 & B2).
  destruct (complete_c _ _ x3 y3 HPQ HR) as (C1 & C2).
  destruct (complete_c x1 y1 _ _ HP HQR) as (D1 & D2).
  clear HPQ HQR. apply on_curve_c in HP. apply on_curve_c in HQ. apply on_curve_c in HR.
  pose proof (assoc_x ecc x1 y1 x2 y2 x3 y3 HP HQ HR) as KX.
  pose proof (assoc_y ecc x1 y1 x2 y2 x3 y3 HP HQ HR) as KY. cbv zeta in KX, KY.
  clear HP HQ HR.
  set (p12 := x1 * x2 * y1 * y2) in *. set (u12 := x1 * y2 + x2 * y1) in *. set (v12 := y1 * y2 - x1 * x2) in *.
  set (p23 := x2 * x3 * y2 * y3) in *. set (u23 := x2 * y3 + x3 * y2) in *. set (v23 := y2 * y3 - x2 * x3) in *.
  clearbody p12 u12 v12 p23 u23 v23.
  assert (Hc : ecc <> 0) by exact ecc_nz. generalize dependent ecc. intros c A1 A2 B1 B2 C1 C2 D1 D2 KX KY Hc.
  (* remove the inner denominators *)
  assert (EC1 : c + c * u12 / (c + p12) * x3 * (c * v12 / (c - p12)) * y3
     = c * ((c + p12) * (c - p12) + c * x3 * y3 * u12 * v12) / ((c + p12) * (c - p12))) by (field; auto).
  assert (EC2 : c - c * u12 / (c + p12) * x3 * (c * v12 / (c - p12)) * y3
     = c * ((c + p12) * (c - p12) - c * x3 * y3 * u12 * v12) / ((c + p12) * (c - p12))) by (field; auto).
  assert (ED1 : c + x1 * (c * u23 / (c + p23)) * y1 * (c * v23 / (c - p23))
     = c * ((c + p23) * (c - p23) + c * x1 * y1 * u23 * v23) / ((c + p23) * (c - p23))) by (field; auto).
  assert (ED2 : c - x1 * (c * u23 / (c + p23)) * y1 * (c * v23 / (c - p23))
     = c * ((c + p23) * (c - p23) - c * x1 * y1 * u23 * v23) / ((c + p23) * (c - p23))) by (field; auto).
  rewrite EC1 in C1. rewrite EC2 in C2. rewrite ED1 in D1. rewrite ED2 in D2.
  rewrite EC1, EC2, ED1, ED2. clear EC1 EC2 ED1 ED2.
  apply div_nz in C1. apply div_nz in C2. apply div_nz in D1. apply div_nz in D2.
  apply fmul_nz_inv in C1. apply fmul_nz_inv in C2. apply fmul_nz_inv in D1. apply fmul_nz_inv in D2.
  destruct C1 as (_ & C1). destruct C2 as (_ & C2). destruct D1 as (_ & D1). destruct D2 as (_ & D2).
  f_equal.
  - transitivity (c * (u12 * (c - p12) * y3 + v12 * (c + p12) * x3) / ((c + p12) * (c - p12) + c * x3 * y3 * u12 * v12)).
    { field. auto. }
    transitivity (c * (x1 * v23 * (c + p23) + y1 * u23 * (c - p23)) / ((c + p23) * (c - p23) + c * x1 * y1 * u23 * v23)).
    2:{ field. auto. }
    apply div_eq; auto. apply mul_scale. exact KX.
  - transitivity (c * (v12 * (c + p12) * y3 - u12 * (c - p12) * x3) / ((c + p12) * (c - p12) - c * x3 * y3 * u12 * v12)).
    { field. auto. }
    transitivity (c * (y1 * v23 * (c + p23) - x1 * u23 * (c - p23)) / ((c + p23) * (c - p23) - c * x1 * y1 * u23 * v23)).
    2:{ field. auto. }
    apply div_eq; auto. apply mul_scale. exact KY.
Qed.

(* cancellation and the laws of emul *)
Lemma eadd_cancel_l : forall P Q R, on_curve P -> on_curve Q -> on_curve R -> eadd P Q = eadd P R -> Q = R.
Proof.
  intros P Q R HP HQ HR H. pose proof (eneg_on P HP) as HN.
  rewrite <- (eadd_0_l Q), <- (eadd_0_l R), <- (eadd_neg_l P HP).
  rewrite !eadd_assoc by assumption. rewrite H. reflexivity.
Qed.
Lemma eneg_unique : forall P Q, on_curve P -> on_curve Q -> eadd P Q = ezero -> Q = eneg P.
Proof.
  intros P Q HP HQ H. apply (eadd_cancel_l P); auto using eneg_on. rewrite eadd_neg by assumption. exact H.
Qed.
Lemma eneg_add : forall P Q, on_curve P -> on_curve Q -> eneg (eadd P Q) = eadd (eneg P) (eneg Q).
Proof.
  intros P Q HP HQ. symmetry. apply eneg_unique; auto using eadd_on, eneg_on.
  rewrite (eadd_comm P Q). rewrite <- eadd_assoc by auto using eadd_on, eneg_on.
  rewrite (eadd_assoc Q P) by auto using eadd_on, eneg_on.
  rewrite eadd_neg, eadd_0_r by assumption. apply eadd_neg. assumption.
Qed.
Lemma eneg_zero : eneg ezero = ezero.
Proof. unfold eneg, ezero. replace (- 0) with 0 by ring. reflexivity. Qed.

Global Opaque eadd eneg ezero.
Definition eiter (n : nat) (P : ept) : ept := Nat.iter n (eadd P) ezero.
Lemma eiter_on : forall n P, on_curve P -> on_curve (eiter n P).
Proof. induction n; intros P H; [ exact ezero_on | ]. simpl. apply eadd_on; auto. Qed.
Lemma eiter_add : forall n m P, on_curve P -> eiter (n + m) P = eadd (eiter n P) (eiter m P).
Proof.
  induction n as [|n IH]; intros m P H.
  - simpl. rewrite eadd_0_l. reflexivity.
  - simpl. fold (eiter (n + m) P). fold (eiter n P). rewrite IH by assumption. rewrite eadd_assoc; auto using eiter_on.
Qed.
Lemma emul_pos : forall k P, emul (Zpos k) P = eiter (Pos.to_nat k) P.
Proof. intros k P. unfold emul, eiter. apply Pos2Nat.inj_iter. Qed.
Lemma emul_nat : forall n P, emul (Z.of_nat n) P = eiter n P.
Proof.
  intros [|n] P; [ reflexivity | ]. simpl Z.of_nat. rewrite emul_pos, SuccNat2Pos.id_succ. reflexivity.
Qed.
Lemma emul_opp : forall n P, emul (- n) P = eneg (emul n P).
Proof.
  intros [|k|k] P; unfold emul; cbn [Z.opp]; [ rewrite eneg_zero | | rewrite eneg_neg ]; reflexivity.
Qed.
Lemma emul_on : forall n P, on_curve P -> on_curve (emul n P).
Proof.
  intros [|k|k] P H; [ exact ezero_on | | ].
  - rewrite emul_pos. apply eiter_on. exact H.
  - change (Zneg k) with (Z.opp (Zpos k)). rewrite emul_opp, emul_pos. apply eneg_on, eiter_on. exact H.
Qed.
Lemma emul_sub_nat : forall a b P, on_curve P ->
  emul (Z.of_nat a - Z.of_nat b) P = eadd (eiter a P) (eneg (eiter b P)).
Proof.
  intros a b P H. destruct (Nat.le_ge_cases b a) as [L|L].
  - replace (Z.of_nat a - Z.of_nat b)%Z with (Z.of_nat (a - b)) by lia. rewrite emul_nat.
    assert (E : eiter a P = eadd (eiter (a - b) P) (eiter b P)) by (rewrite <- eiter_add by assumption; f_equal; lia).
    rewrite E, eadd_assoc, eadd_neg, eadd_0_r; auto using eiter_on, eneg_on.
  - replace (Z.of_nat a - Z.of_nat b)%Z with (- Z.of_nat (b - a))%Z by lia. rewrite emul_opp, emul_nat.
    assert (E : eiter b P = eadd (eiter (b - a) P) (eiter a P)) by (rewrite <- eiter_add by assumption; f_equal; lia).
    rewrite E, eneg_add by auto using eiter_on.
    rewrite (eadd_comm (eneg _)), <- eadd_assoc, eadd_neg, eadd_0_l; auto using eiter_on, eneg_on.
Qed.
Lemma z_diff : forall n, exists a b, n = (Z.of_nat a - Z.of_nat b)%Z.
Proof.
  intro n. destruct (Z.le_ge_cases 0 n).
  - exists (Z.to_nat n), 0%nat. lia.
  - exists 0%nat, (Z.to_nat (- n)). lia.
Qed.
Lemma four_swap : forall a b c d, on_curve a -> on_curve b -> on_curve c -> on_curve d ->
  eadd (eadd a b) (eadd c d) = eadd (eadd a c) (eadd b d).
Proof.
  intros a b c d Ha Hb Hc Hd.
  rewrite (eadd_assoc a b), (eadd_assoc a c) by auto using eadd_on. f_equal.
  rewrite <- (eadd_assoc b c d), <- (eadd_assoc c b d) by assumption. f_equal. apply eadd_comm.
Qed.
Lemma emul_add : forall n m P, on_curve P -> emul (n + m) P = eadd (emul n P) (emul m P).
Proof.
  intros n m P H. destruct (z_diff n) as (a & b & ->). destruct (z_diff m) as (a' & b' & ->).
  replace (Z.of_nat a - Z.of_nat b + (Z.of_nat a' - Z.of_nat b'))%Z with (Z.of_nat (a + a') - Z.of_nat (b + b'))%Z by lia.
  rewrite !emul_sub_nat, !eiter_add, eneg_add by auto using eiter_on.
  apply four_swap; auto using eiter_on, eneg_on.
Qed.
Lemma emul_0 : forall P, emul 0 P = ezero.
Proof. reflexivity. Qed.
Lemma emul_1 : forall P, emul 1 P = P.
Proof. intro P. rewrite emul_pos. cbn. apply eadd_0_r. Qed.
Lemma emul_2 : forall P, on_curve P -> emul 2 P = eadd P P.
Proof. intros P H. change 2%Z with (1 + 1)%Z. rewrite emul_add, emul_1 by exact H. reflexivity. Qed.
Lemma eiter_eadd : forall n P Q, on_curve P -> on_curve Q -> eiter n (eadd P Q) = eadd (eiter n P) (eiter n Q).
Proof.
  induction n as [|n IH]; intros P Q HP HQ.
  - simpl. rewrite eadd_0_l. reflexivity.
  - simpl. fold (eiter n (eadd P Q)). fold (eiter n P). fold (eiter n Q). rewrite IH by assumption.
    apply four_swap; auto using eiter_on.
Qed.
Lemma eiter_zero : forall n, eiter n ezero = ezero.
Proof. induction n as [|n IH]; [ reflexivity | ]. simpl. fold (eiter n ezero). rewrite IH. apply eadd_0_l. Qed.
Lemma eiter_neg : forall n P, on_curve P -> eiter n (eneg P) = eneg (eiter n P).
Proof.
  induction n as [|n IH]; intros P H; simpl; [ symmetry; apply eneg_zero | ].
  fold (eiter n (eneg P)). fold (eiter n P). rewrite IH, eneg_add; auto using eiter_on.
Qed.
Lemma emul_eadd : forall n P Q, on_curve P -> on_curve Q -> emul n (eadd P Q) = eadd (emul n P) (emul n Q).
Proof.
  intros n P Q HP HQ. destruct (z_diff n) as (a & b & ->).
  rewrite !emul_sub_nat, !eiter_eadd, eneg_add by auto using eadd_on, eiter_on.
  apply four_swap; auto using eiter_on, eneg_on.
Qed.
Lemma emul_ezero : forall n, emul n ezero = ezero.
Proof.
  intro n. destruct (z_diff n) as (a & b & ->). rewrite emul_sub_nat by exact ezero_on.
  rewrite !eiter_zero, eneg_zero. apply eadd_0_l.
Qed.
Lemma emul_eneg : forall n P, on_curve P -> emul n (eneg P) = eneg (emul n P).
Proof.
  intros n P H. destruct (z_diff n) as (a & b & ->).
  rewrite !emul_sub_nat, !eiter_neg by auto using eneg_on. symmetry. apply eneg_add; auto using eiter_on, eneg_on.
Qed.
Lemma emul_mul : forall n m P, on_curve P -> emul (n * m) P = emul n (emul m P).
Proof.
  intros n m P H.
  assert (N : forall a : nat, emul (Z.of_nat a * m) P = emul (Z.of_nat a) (emul m P)).
  { induction a as [|a IH]; [ reflexivity | ].
    replace (Z.of_nat (S a) * m)%Z with (m + Z.of_nat a * m)%Z by lia.
    replace (Z.of_nat (S a)) with (1 + Z.of_nat a)%Z by lia.
    rewrite !emul_add, emul_1, IH by auto using emul_on. reflexivity. }
  destruct (Z.le_ge_cases 0 n).
  - rewrite <- (Z2Nat.id n) by assumption. apply N.
  - replace n with (- Z.of_nat (Z.to_nat (- n)))%Z by lia.
    rewrite Z.mul_opp_l, !emul_opp, N. reflexivity.
Qed.
(* multiples of a point killed by m depend on n modulo m only *)
Lemma emul_mod : forall n m P, on_curve P -> emul m P = ezero -> m <> 0%Z -> emul (n mod m) P = emul n P.
Proof.
  intros n m P H Hm Hn. rewrite (Z.div_mod n m Hn) at 2.
  rewrite emul_add, Z.mul_comm, emul_mul, Hm, emul_ezero, eadd_0_l by exact H. reflexivity.
Qed.
Global Opaque emul.
