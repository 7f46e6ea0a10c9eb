(* The 4-isogeny from edwards448 to the twisted curve -a^2 + b^2 = 1 + (d-1) a^2 b^2 on which the
   crate computes.  The addition law of the twisted curve is not complete, but it has no
   exceptional case on the image of the isogeny. *)
From Coq Require Import ZArith List Bool Lia Ring Field.
From Verif Require Import SpecField SpecCurve Field Edwards.
Import ListNotations.
Open Scope Z_scope.
Open Scope F_scope.

Section Identities.
Variables c x1 y1 x2 y2 : Fp.
Hypothesis H1 : x1 * x1 * y1 * y1 = c * (x1 * x1 + y1 * y1 - 1).
Hypothesis H2 : x2 * x2 * y2 * y2 = c * (x2 * x2 + y2 * y2 - 1).
Let p := x1 * x2 * y1 * y2.
Let u := x1 * y2 + x2 * y1.
Let v := y1 * y2 - x1 * x2.
Let t1 := y1 * y1 - x1 * x1.
Let t2 := y2 * y2 - x2 * x2.
Let D1 := x1 * x1 + y1 * y1.
Let D2 := x2 * x2 + y2 * y2.
Let w1 := mkF 2 - D1.
Let w2 := mkF 2 - D2.
Lemma hom_x : u * v * (c + p) * (c - p) * (c * t1 * t2 * w1 * w2 + mkF 4 * (1 - c) * p * D1 * D2)
  = c * (x1 * y1 * D2 * w1 * t2 + x2 * y2 * D1 * w2 * t1) * (v * v * (c + p) * (c + p) - u * u * (c - p) * (c - p)).
Proof. unfold u, v, p, t1, t2, w1, w2, D1, D2. ring [H1 H2]. Qed.
Lemma hom_y : c * (v * v * (c + p) * (c + p) + u * u * (c - p) * (c - p)) * (c * t1 * t2 * w1 * w2 - mkF 4 * (1 - c) * p * D1 * D2)
  = (D1 * D2 * t1 * t2 + mkF 4 * p * w1 * w2) *
    (mkF 2 * (c + p) * (c - p) * (c + p) * (c - p) - c * c * (v * v * (c + p) * (c + p) + u * u * (c - p) * (c - p))).
Proof. unfold u, v, p, t1, t2, w1, w2, D1, D2. ring [H1 H2]. Qed.
End Identities.

Definition phi (Q : ept) : Fp * Fp :=
  let (x, y) := Q in
  (- (mkF 2 * x * y) / (y * y - x * x), (x * x + y * y) / (mkF 2 - (x * x + y * y))).

(* denominators *)
Lemma phi_t_nz : forall x y, on_curve (x, y) -> y * y - x * x <> 0.
Proof.
  intros x y H E. apply one_m_ecd_nonsquare. exists (ecd * (x * x) - 1).
  unfold on_curve in H. apply (proj1 (fsub_zero _ _)) in E. rewrite E in H.
  replace ((ecd * (x * x) - 1) * (ecd * (x * x) - 1))
    with (ecd * (1 + ecd * (x * x * (x * x)) - (x * x + x * x)) + 1 - ecd) by ring.
  rewrite <- H. ring.
Qed.
Lemma phi_w_nz : forall x y, on_curve (x, y) -> mkF 2 - (x * x + y * y) <> 0.
Proof.
  intros x y H E. unfold on_curve in H.
  assert (K : ecd * ((x * y) * (x * y)) = 1).
  { replace (ecd * ((x * y) * (x * y))) with (1 + ecd * (x * x * (y * y)) - 1) by ring.
    rewrite <- H. replace (x * x + y * y - 1) with (1 - (mkF 2 - (x * x + y * y))) by ring. rewrite E. ring. }
  assert (N : x * y <> 0).
  { intro Z. rewrite Z in K. apply fone_nz. rewrite <- K. ring. }
  apply ecd_nonsquare. exists (1 / (x * y)).
  replace (1 / (x * y) * (1 / (x * y))) with (1 / ((x * y) * (x * y))) by (field; apply fmul_nz_inv in N; tauto).
  rewrite <- K at 1. field. apply fmul_nz_inv in N; tauto.
Qed.
Lemma phi_D_nz : forall x y, on_curve (x, y) -> x * x + y * y <> 0.
Proof.
  intros x y H E. destruct (sum_squares_zero x y E) as (-> & ->).
  unfold on_curve in H. apply fone_nz. transitivity (1 + ecd * (0 * 0 * (0 * 0))); [ ring | ].
  rewrite <- H. ring.
Qed.

(* the twisted curve, and the two facts about squares on the image *)
Definition twd : Fp := ecd - 1.
Lemma phi_curve : forall Q, on_curve Q -> let (a, b) := phi Q in
  b * b - a * a = 1 + twd * (a * a * (b * b)).
Proof.
  intros (x, y) H. unfold phi, twd.
  pose proof (phi_t_nz x y H) as Nt. pose proof (phi_w_nz x y H) as Nw.
  apply on_curve_c in H. 
  assert (K : forall c, c * ecd = 1 -> x * x * y * y = c * (x * x + y * y - 1) ->
    c * ((x * x + y * y) * (x * x + y * y) * ((y * y - x * x) * (y * y - x * x))
      - mkF 4 * (x * x * y * y) * ((mkF 2 - (x * x + y * y)) * (mkF 2 - (x * x + y * y)))
      - (y * y - x * x) * (y * y - x * x) * ((mkF 2 - (x * x + y * y)) * (mkF 2 - (x * x + y * y))))
    = (1 - c) * (mkF 4 * (x * x * y * y) * ((x * x + y * y) * (x * x + y * y)))).
  { intros c Hc Hx. ring [Hx]. }
  specialize (K ecc ecc_d H). clear H.
  set (D := x * x + y * y) in *. set (t := y * y - x * x) in *. set (w := mkF 2 - D) in *.
  assert (K2 : D * D * (t * t) - mkF 4 * (x * x * y * y) * (w * w) - t * t * (w * w)
     = (ecd - 1) * (mkF 4 * (x * x * y * y) * (D * D))).
  { apply (fmul_cancel ecc); [ exact ecc_nz | ]. rewrite K. 
    replace (ecc * ((ecd - 1) * (mkF 4 * (x * x * y * y) * (D * D))))
      with ((ecc * ecd - ecc) * (mkF 4 * (x * x * y * y) * (D * D))) by ring. rewrite ecc_d. reflexivity. }
  clearbody D t w. clear K.
  transitivity ((D * D * (t * t) - mkF 4 * (x * x * y * y) * (w * w)) / (t * t * (w * w))); [ field; auto | ].
  replace (D * D * (t * t) - mkF 4 * (x * x * y * y) * (w * w)) with
    ((ecd - 1) * (mkF 4 * (x * x * y * y) * (D * D)) + t * t * (w * w)) by (rewrite <- K2; ring).
  field. auto.
Qed.
Lemma phi_b_nz : forall Q, on_curve Q -> snd (phi Q) <> 0.
Proof.
  intros (x, y) H. unfold phi, snd. intro E.
  apply (phi_D_nz x y H).
  replace (x * x + y * y) with ((x * x + y * y) / (mkF 2 - (x * x + y * y)) * (mkF 2 - (x * x + y * y)))
    by (field; exact (phi_w_nz x y H)).
  rewrite E. ring.
Qed.
(* b^2 - 1 = 4 d x^2 y^2 / w^2: a square only when x y = 0, i.e. a = 0 *)
Lemma phi_b_square : forall Q, on_curve Q -> let (a, b) := phi Q in is_square (b * b - 1) -> a = 0.
Proof.
  intros (x, y) H. unfold phi. pose proof (phi_w_nz x y H) as Nw. intros (r & Hr).
  assert (E : (x * x + y * y) / (mkF 2 - (x * x + y * y)) * ((x * x + y * y) / (mkF 2 - (x * x + y * y))) - 1
    = ecd * ((mkF 2 * (x * y) / (mkF 2 - (x * x + y * y))) * (mkF 2 * (x * y) / (mkF 2 - (x * x + y * y))))).
  { unfold on_curve in H.
    assert (K : (x * x + y * y) * (x * x + y * y) - (mkF 2 - (x * x + y * y)) * (mkF 2 - (x * x + y * y))
       = ecd * (mkF 4 * (x * y) * (x * y))).
    { transitivity (mkF 4 * (x * x + y * y - 1)); [ ring | rewrite H; ring ]. }
    set (w := mkF 2 - (x * x + y * y)) in *. set (D := x * x + y * y) in *. clearbody w D.
    transitivity ((D * D - w * w) / (w * w)); [ field; auto | ]. rewrite K. field. auto. }
  rewrite E in Hr. destruct (F_dec (x * y) 0) as [Z|Z].
  - replace (mkF 2 * x * y) with (mkF 2 * (x * y)) by ring. rewrite Z, fdiv_def. ring.
  - exfalso. apply ecd_nonsquare.
    set (s := mkF 2 * (x * y) / (mkF 2 - (x * x + y * y))) in *.
    assert (Ns : s <> 0).
    { unfold s. intro E0. apply Z. apply (fmul_cancel (mkF 2)); [ exact two_nz | ].
      transitivity (mkF 2 * (x * y) / (mkF 2 - (x * x + y * y)) * (mkF 2 - (x * x + y * y))); [ field; auto | ].
      rewrite E0. ring. }
    exists (r / s). transitivity ((r * r) / (s * s)); [ field; auto | ]. rewrite Hr. field. auto.
Qed.

Lemma phi_plus_square : forall Q, on_curve Q -> is_square (1 + fst (phi Q) * fst (phi Q)).
Proof.
  intros (x, y) H. pose proof (phi_t_nz x y H) as Nt. unfold phi, fst.
  exists ((x * x + y * y) / (y * y - x * x)). field. exact Nt.
Qed.

Lemma twd_val : twd = mkF (-39082).
Proof. Transparent ecd. unfold twd. change 1 with (mkF 1). unfold ecd. rewrite <- mkF_sub. reflexivity. Qed.
Opaque ecd.

(* no exceptional case *)
Lemma phi_nonvanish : forall P Q, on_curve P -> on_curve Q ->
  let (a1, b1) := phi P in let (a2, b2) := phi Q in
  let e := twd * (a1 * a2 * (b1 * b2)) in e * e <> 1.
Proof.
  intros P Q HP HQ.
  pose proof (phi_curve P HP) as C1. pose proof (phi_curve Q HQ) as C2.
  pose proof (phi_b_square P HP) as S1. pose proof (phi_plus_square Q HQ) as P2.
  destruct (phi P) as (a1, b1). destruct (phi Q) as (a2, b2). cbn [fst snd] in P2. cbv zeta. intro E.
  assert (TD : mkF SQRTM39082 * mkF SQRTM39082 = twd) by exact sqrtm39082_ok.
  set (s := mkF SQRTM39082) in *. clearbody s.
  assert (K : (twd * (a2 * a2) * (b1 * b1) - 1) * (twd * (a1 * a1) * (a2 * a2) + 1) = 0).
  { transitivity (twd * (a2 * a2) * (twd * (a1 * a1 * (b1 * b1)) * (a2 * a2)) + twd * (a2 * a2) * (b1 * b1 - a1 * a1) - 1).
    { ring. }
    rewrite C1.
    transitivity (twd * twd * (a1 * a1) * (b1 * b1) * (a2 * a2) * (1 + a2 * a2) + twd * (a2 * a2) - 1); [ ring | ].
    replace (1 + a2 * a2) with (b2 * b2 - twd * (a2 * a2 * (b2 * b2))).
    2:{ transitivity (b2 * b2 - a2 * a2 + a2 * a2 - twd * (a2 * a2 * (b2 * b2))); [ ring | rewrite C2; ring ]. }
    transitivity ((twd * (a1 * a2 * (b1 * b2))) * (twd * (a1 * a2 * (b1 * b2))) * (1 - twd * (a2 * a2)) + twd * (a2 * a2) - 1).
    { ring. }
    rewrite E. ring. }
  apply fmul_zero in K. destruct K as [K|K].
  - (* twd a2^2 b1^2 = 1 *)
    assert (A2 : a2 <> 0).
    { intro Z. rewrite Z in K. apply fone_nz. transitivity (- (twd * (0 * 0) * (b1 * b1) - 1)); [ ring | rewrite K; ring ]. }
    assert (A1 : a1 = 0).
    { apply S1.
      (* b1^2 - 1 = a1^2 (1 + twd b1^2) = a1^2 (1 + 1/a2^2), and twd a2^2 (b1^2-1) = 1 - twd a2^2 *)
      assert (T1 : twd * (a2 * a2) * (b1 * b1) = 1) by (apply fsub_zero; exact K).
      assert (M : (b1 * b1 - 1) * (a2 * a2) = a1 * a1 * (1 + a2 * a2)).
      { transitivity ((b1 * b1 - a1 * a1 + a1 * a1 - 1) * (a2 * a2)); [ ring | ]. rewrite C1.
        transitivity (a1 * a1 * ((twd * (a2 * a2) * (b1 * b1)) + a2 * a2)); [ ring | ]. rewrite T1. reflexivity. }
      destruct P2 as (r & Hr). exists (a1 * r / a2).
      transitivity ((a1 * a1 * (r * r)) / (a2 * a2)); [ field; exact A2 | ].
      rewrite Hr, <- M. field. exact A2. }
    apply fone_nz. rewrite <- E, A1. ring.
  - apply mone_nonsquare. exists (s * a1 * a2).
    transitivity (twd * (a1 * a1) * (a2 * a2)); [ rewrite <- TD; ring | ].
    transitivity (twd * (a1 * a1) * (a2 * a2) + 1 - 1); [ ring | rewrite K; ring ].
Qed.

Lemma sqr_one : forall e, e * e <> 1 -> 1 + e <> 0 /\ 1 - e <> 0.
Proof.
  intros e H. split; intro E; apply H.
  - transitivity ((1 + e) * (e - 1) + 1); [ ring | rewrite E; ring ].
  - transitivity (1 - (1 - e) * (1 + e)); [ ring | rewrite E; ring ].
Qed.
Lemma twd_c : ecc * twd = 1 - ecc.
Proof. unfold twd. transitivity (ecc * ecd - ecc); [ ring | rewrite ecc_d; ring ]. Qed.

(* phi is a homomorphism into the twisted addition law *)
Lemma phi_hom : forall P Q, on_curve P -> on_curve Q ->
  let (a1, b1) := phi P in let (a2, b2) := phi Q in let (a3, b3) := phi (eadd P Q) in
  let e := twd * (a1 * a2 * (b1 * b2)) in
  1 + e <> 0 /\ 1 - e <> 0 /\ a3 * (1 + e) = a1 * b2 + a2 * b1 /\ b3 * (1 - e) = b1 * b2 + a1 * a2.
Proof.
  intros P Q HP HQ.
  pose proof (phi_nonvanish P Q HP HQ) as NV.
  pose proof (eadd_on P Q HP HQ) as HS.
  destruct P as (x1, y1). destruct Q as (x2, y2). rewrite (eadd_c x1 y1 x2 y2 HP HQ) in *.
  destruct (complete_c x1 y1 x2 y2 HP HQ) as (A1 & A2).
  pose proof (phi_t_nz _ _ HP) as T1. pose proof (phi_w_nz _ _ HP) as W1.
  pose proof (phi_t_nz _ _ HQ) as T2. pose proof (phi_w_nz _ _ HQ) as W2.
  pose proof (phi_t_nz _ _ HS) as T3. pose proof (phi_w_nz _ _ HS) as W3.
  unfold phi in *. cbv zeta in *.
  destruct (sqr_one _ NV) as (E1 & E2). split; [ exact E1 | ]. split; [ exact E2 | ]. clear NV E1 E2 HS.
  apply on_curve_c in HP. apply on_curve_c in HQ.
  pose proof (hom_x ecc x1 y1 x2 y2 HP HQ) as KX. pose proof (hom_y ecc x1 y1 x2 y2 HP HQ) as KY. cbv zeta in KX, KY.
  clear HP HQ.
  set (t1 := y1 * y1 - x1 * x1) in *. set (t2 := y2 * y2 - x2 * x2) in *.
  set (D1 := x1 * x1 + y1 * y1) in *. set (D2 := x2 * x2 + y2 * y2) in *.
  set (w1 := mkF 2 - D1) in *. set (w2 := mkF 2 - D2) in *.
  set (p := x1 * x2 * y1 * y2) in *. set (u := x1 * y2 + x2 * y1) in *. set (v := y1 * y2 - x1 * x2) in *.
  pose proof twd_c as TW. pose proof ecc_nz as NC.
  assert (EP : mkF 2 * x1 * y1 * (mkF 2 * x2 * y2) = mkF 4 * p) by (unfold p; ring).
  clearbody D1 D2 t1 t2 w1 w2 p u v.
  generalize dependent twd. generalize dependent ecc. intros c A1 A2 T3 W3 KX KY NC d' TW.
  assert (ED : d' = (1 - c) / c) by (rewrite <- TW; field; exact NC).
  set (z1 := mkF 2 * x1 * y1) in *. set (z2 := mkF 2 * x2 * y2) in *.
  assert (XY : x1 * y1 * D2 * w1 * t2 + x2 * y2 * D1 * w2 * t1 = (z1 * D2 * w1 * t2 + z2 * D1 * w2 * t1) / mkF 2)
    by (unfold z1, z2; field; exact two_nz).
  rewrite XY in KX. clear XY. clearbody z1 z2.
  assert (ET3 : c * v / (c - p) * (c * v / (c - p)) - c * u / (c + p) * (c * u / (c + p)) =
     c * c * (v * v * (c + p) * (c + p) - u * u * (c - p) * (c - p)) / ((c + p) * (c + p) * ((c - p) * (c - p))))
    by (field; auto).
  assert (EW3 : mkF 2 - (c * u / (c + p) * (c * u / (c + p)) + c * v / (c - p) * (c * v / (c - p))) =
     (mkF 2 * (c + p) * (c - p) * (c + p) * (c - p) - c * c * (v * v * (c + p) * (c + p) + u * u * (c - p) * (c - p)))
       / ((c + p) * (c + p) * ((c - p) * (c - p)))) by (field; auto).
  assert (EN3 : c * u / (c + p) * (c * u / (c + p)) + c * v / (c - p) * (c * v / (c - p)) =
     c * c * (v * v * (c + p) * (c + p) + u * u * (c - p) * (c - p)) / ((c + p) * (c + p) * ((c - p) * (c - p))))
    by (field; auto).
  rewrite ET3 in *. rewrite EW3 in *. rewrite EN3. clear ET3 EW3 EN3.
  apply div_nz in T3. apply div_nz in W3. apply fmul_nz_inv in T3. destruct T3 as (_ & T3).
  set (T := v * v * (c + p) * (c + p) - u * u * (c - p) * (c - p)) in *.
  set (N := v * v * (c + p) * (c + p) + u * u * (c - p) * (c - p)) in *.
  set (W := mkF 2 * (c + p) * (c - p) * (c + p) * (c - p) - c * c * N) in *.
  clearbody T N W.
  assert (EE : d' * (- z1 / t1 * (- z2 / t2) * (D1 / w1 * (D2 / w2))) = mkF 4 * (1 - c) * p * D1 * D2 / (c * t1 * t2 * w1 * w2)).
  { rewrite ED. transitivity ((1 - c) * (z1 * z2) * D1 * D2 / (c * t1 * t2 * w1 * w2)); [ field; tauto | ]. rewrite EP. field. tauto. }
  rewrite EE. clear EE.
  pose proof two_nz as N2.
  split.
  - transitivity (- mkF 2 * (u * v * (c + p) * (c - p) * (c * t1 * t2 * w1 * w2 + mkF 4 * (1 - c) * p * D1 * D2))
       / (c * t1 * t2 * w1 * w2 * T)); [ field; tauto | ].
    rewrite KX. field. tauto.
  - transitivity ((c * N * (c * t1 * t2 * w1 * w2 - mkF 4 * (1 - c) * p * D1 * D2)) / (t1 * t2 * w1 * w2 * W)); [ field; tauto | ].
    rewrite KY, <- EP. field. tauto.
Qed.

Local Transparent eneg ezero eadd.
Lemma phi_neg : forall Q, on_curve Q -> phi (eneg Q) = let (a, b) := phi Q in (- a, b).
Proof.
  intros (x, y) H. pose proof (phi_t_nz x y H) as Nt. pose proof (phi_w_nz x y H) as Nw.
  unfold eneg, phi.
  replace (- x * - x) with (x * x) by ring. f_equal. field. exact Nt.
Qed.
Lemma phi_zero : phi ezero = (0, 1).
Proof.
  unfold ezero, phi.
  replace (0 * 0 + 1 * 1) with 1 by ring. replace (mkF 2 - 1) with 1 by ring. replace (1 * 1 - 0 * 0) with 1 by ring.
  rewrite !fdiv_1. replace (- (mkF 2 * 0 * 1)) with 0 by ring. reflexivity.
Qed.
Lemma edouble : forall x y, on_curve (x, y) ->
  eadd (x, y) (x, y) = (mkF 2 * x * y / (x * x + y * y), (y * y - x * x) / (mkF 2 - (x * x + y * y))).
Proof.
  intros x y H. unfold eadd. unfold on_curve in H.
  replace (1 + ecd * (x * x * (y * y))) with (x * x + y * y) by (rewrite H; ring).
  replace (1 - ecd * (x * x * (y * y))) with (mkF 2 - (x * x + y * y)) by (rewrite H; ring).
  f_equal. f_equal. ring.
Qed.
Local Opaque eneg ezero eadd.
Lemma emul_4 : forall Q, on_curve Q -> emul 4 Q = eadd (eadd Q Q) (eadd Q Q).
Proof. intros Q H. change 4%Z with (2 * 2)%Z. rewrite emul_mul by exact H. rewrite (emul_2 Q H). apply emul_2. apply eadd_on; exact H. Qed.

(* the dual map gives 4 Q *)
Lemma psi_phi : forall Q, on_curve Q -> let (a, b) := phi Q in
  a * a + b * b <> 0 /\ mkF 2 - (b * b - a * a) <> 0 /\
  emul 4 Q = (- (mkF 2 * a * b) / (a * a + b * b), (b * b - a * a) / (mkF 2 - (b * b - a * a))).
Proof.
  intros Q HQ. pose proof (phi_curve Q HQ) as C. pose proof (phi_b_nz Q HQ) as NB.
  pose proof (phi_nonvanish Q Q HQ HQ) as NV. rewrite emul_4 by exact HQ.
  pose proof (eadd_on Q Q HQ HQ) as H2.
  destruct (phi Q) as (a, b) eqn:EP. cbn [snd] in NB. cbv zeta in NV. apply sqr_one in NV. destruct NV as (_ & NV).
  assert (S1 : a * a + b * b <> 0) by (intro Z; apply NB; apply (sum_squares_zero a b Z)).
  assert (S2 : mkF 2 - (b * b - a * a) <> 0).
  { rewrite C. intro Z. apply NV. rewrite <- Z. ring. }
  split; [ exact S1 | ]. split; [ exact S2 | ].
  destruct Q as (x, y). rewrite (edouble x y HQ) in *.
  pose proof (phi_D_nz x y HQ) as Nd. pose proof (phi_w_nz x y HQ) as Nw. pose proof (phi_t_nz x y HQ) as Nt.
  pose proof (phi_D_nz _ _ H2) as Nd2. pose proof (phi_w_nz _ _ H2) as Nw2.
  rewrite (edouble _ _ H2).
  unfold phi in EP.
  assert (TT : (x * x + y * y) * (x * x + y * y) - (y * y - x * x) * (y * y - x * x) = mkF 4 * (x * y) * (x * y)) by ring.
  assert (Z2 : mkF 2 * x * y * (mkF 2 * x * y) = mkF 4 * (x * y) * (x * y)) by ring. rewrite <- Z2 in TT. clear Z2.
  set (D := x * x + y * y) in *. set (t := y * y - x * x) in *. set (w := mkF 2 - D) in *. set (z := mkF 2 * x * y) in *.
  pose proof (f_equal fst EP) as Ea. pose proof (f_equal snd EP) as Eb. cbn [fst snd] in Ea, Eb. subst a b. clear EP C NB NV HQ H2. clearbody D t w z.
  assert (E1 : z / D * (z / D) + t / w * (t / w) = (z * z * (w * w) + t * t * (D * D)) / (D * D * (w * w))) by (field; auto).
  assert (E2 : mkF 2 - (z / D * (z / D) + t / w * (t / w)) =
     (mkF 2 * (D * D * (w * w)) - (z * z * (w * w) + t * t * (D * D))) / (D * D * (w * w))) by (field; auto).
  assert (E3 : - z / t * (- z / t) + D / w * (D / w) = (z * z * (w * w) + t * t * (D * D)) / (t * t * (w * w))) by (field; auto).
  assert (E4 : mkF 2 - (D / w * (D / w) - - z / t * (- z / t)) =
     (mkF 2 * (t * t * (w * w)) - (D * D * (t * t) - z * z * (w * w))) / (t * t * (w * w))) by (field; auto).
  assert (E5 : D / w * (D / w) - - z / t * (- z / t) = (D * D * (t * t) - z * z * (w * w)) / (t * t * (w * w))) by (field; auto).
  rewrite E1 in *. rewrite E2 in *. rewrite E3 in *. rewrite E4 in *. rewrite E5. clear E1 E2 E3 E4 E5.
  assert (EQ : mkF 2 * (t * t * (w * w)) - (D * D * (t * t) - z * z * (w * w))
     = mkF 2 * (D * D * (w * w)) - (z * z * (w * w) + t * t * (D * D))).
  { transitivity (mkF 2 * ((t * t - D * D) * (w * w)) + mkF 2 * (z * z * (w * w)) +
       (mkF 2 * (D * D * (w * w)) - (z * z * (w * w) + t * t * (D * D)))); [ ring | rewrite <- TT; ring ]. }
  rewrite EQ in *. apply div_nz in Nd2. apply div_nz in Nw2. clear S1 S2.
  set (U := z * z * (w * w) + t * t * (D * D)) in *.
  set (V := mkF 2 * (D * D * (w * w)) - U) in *. clearbody U V.
  f_equal; field; tauto.
Qed.

(* a = 0 exactly on the points of order dividing 4 *)
Lemma phi_a_zero : forall Q, on_curve Q -> (fst (phi Q) = 0 <-> emul 4 Q = ezero).
Proof.
  intros Q H. pose proof (psi_phi Q H) as K. pose proof (phi_curve Q H) as C. pose proof (phi_b_nz Q H) as NB.
  destruct (phi Q) as (a, b). cbn [fst snd] in *. destruct K as (K1 & K2 & K3). rewrite K3. clear K3.
  Local Transparent ezero. unfold ezero. split.
  - intros ->. assert (B1 : b * b = 1) by (transitivity (b * b - 0 * 0); [ ring | rewrite C; ring ]).
    replace (- (mkF 2 * 0 * b) / (0 * 0 + b * b)) with 0 by (rewrite fdiv_def; ring).
    replace (b * b - 0 * 0) with 1 by (rewrite <- B1; ring). replace (mkF 2 - 1) with 1 by ring.
    rewrite fdiv_1. reflexivity.
  - intro E. apply (f_equal fst) in E. cbn [fst] in E. rename E into E1.
    assert (Z : - (mkF 2 * a * b) = 0).
    { transitivity (- (mkF 2 * a * b) / (a * a + b * b) * (a * a + b * b)); [ field; exact K1 | rewrite E1; ring ]. }
    assert (Z2 : mkF 2 * b * a = 0) by (transitivity (- - (mkF 2 * a * b)); [ ring | rewrite Z; ring ]).
    apply fmul_zero in Z2. destruct Z2 as [Z2|Z2]; [ | exact Z2 ].
    exfalso. apply fmul_zero in Z2. destruct Z2 as [Z2|Z2]; [ exact (two_nz Z2) | exact (NB Z2) ].
Qed.
Local Opaque ezero.
(* equal ratios a/b: equal up to a point of order dividing 4 *)
Lemma phi_ratio : forall P Q, on_curve P -> on_curve Q ->
  (fst (phi P) * snd (phi Q) = fst (phi Q) * snd (phi P) <-> emul 4 P = emul 4 Q).
Proof.
  intros P Q HP HQ.
  pose proof (eneg_on Q HQ) as HN. pose proof (eadd_on P (eneg Q) HP HN) as HS.
  pose proof (phi_a_zero _ HS) as Z. pose proof (phi_hom P (eneg Q) HP HN) as K.
  rewrite (phi_neg Q HQ) in K.
  assert (E4 : emul 4 (eadd P (eneg Q)) = ezero <-> emul 4 P = emul 4 Q).
  { rewrite emul_eadd, emul_eneg by assumption. split; intro E.
    - apply eneg_unique in E; auto using emul_on, eneg_on.
      rewrite <- (eneg_neg (emul 4 Q)), E, eneg_neg. reflexivity.
    - rewrite E. apply eadd_neg. auto using emul_on. }
  rewrite <- E4, <- Z. clear E4 Z.
  destruct (phi P) as (a1, b1). destruct (phi Q) as (a2, b2). destruct (phi (eadd P (eneg Q))) as (a3, b3).
  cbn [fst snd]. cbv zeta in K. destruct K as (K1 & _ & K3 & _).
  split; intro E.
  - assert (M : a3 * (1 + twd * (a1 * - a2 * (b1 * b2))) = 0) by (rewrite K3, E; ring).
    apply fmul_zero in M. destruct M as [M|M]; [ exact M | contradiction ].
  - rewrite E in K3. apply fsub_zero.
    transitivity (a1 * b2 + - a2 * b1); [ ring | rewrite <- K3; ring ].
Qed.
Global Opaque phi.
Global Opaque twd.
