(* The points of order dividing 4 are (0, 1), (0, -1), (1, 0), (-1, 0): the kernel of the isogeny. *)
From Coq Require Import ZArith List Bool Lia Ring Field.
From Verif Require Import SpecField SpecScalar SpecCurve Field Edwards Isogeny PointOps Order Equation.
Import ListNotations.
Open Scope Z_scope.
Open Scope F_scope.

Lemma fdiv_mul : forall a b, b <> 0 -> a / b * b = a.
Proof. intros a b H. field. exact H. Qed.
Lemma double_x0 : forall x y, on_curve (x, y) -> fst (eadd (x, y) (x, y)) = 0 -> x = 0 \/ y = 0.
Proof.
  intros x y H. rewrite edouble by exact H. unfold fst. intro E. pose proof (phi_D_nz x y H) as N.
  assert (K : mkF 2 * x * y = 0) by (rewrite <- (fdiv_mul (mkF 2 * x * y) _ N), E; ring).
  apply fmul_zero in K. destruct K as [K|K]; [ | right; exact K ]. apply fmul_zero in K. destruct K as [K|K]; [ exfalso; apply two_nz; exact K | left; exact K ].
Qed.
Transparent ezero.
Lemma ezero_coords : fst ezero = 0 /\ snd ezero = 1.
Proof. split; reflexivity. Qed.
Opaque ezero.
Lemma double_zero : forall x y, on_curve (x, y) -> eadd (x, y) (x, y) = ezero -> x = 0 /\ y * y = 1.
Proof.
  intros x y H E. destruct ezero_coords as (Z0 & Z1).
  assert (X : x = 0 \/ y = 0) by (apply double_x0; [ exact H | rewrite E; exact Z0 ]).
  rewrite edouble in E by exact H. rewrite <- E in Z1. unfold snd in Z1. pose proof (phi_w_nz x y H) as N.
  assert (K : y * y - x * x = mkF 2 - (x * x + y * y)) by (rewrite <- (fdiv_mul (y * y - x * x) _ N), Z1; ring).
  assert (Y : mkF 2 * (y * y) = mkF 2 * 1).
  { replace (mkF 2 * (y * y)) with (y * y - x * x + (x * x + y * y)) by ring. rewrite K. ring. }
  assert (Y1 : y * y = 1).
  { assert (P : mkF 2 * (y * y - 1) = 0) by (replace (mkF 2 * (y * y - 1)) with (mkF 2 * (y * y) - mkF 2 * 1) by ring; rewrite Y; ring).
    apply fmul_zero in P. destruct P as [P|P]; [ exfalso; apply two_nz; exact P | apply fsub_zero; exact P ]. }
  split; [ | exact Y1 ]. destruct X as [X|X]; [ exact X | ]. exfalso. apply fone_nz. rewrite <- Y1, X. ring.
Qed.
Lemma torsion4 : forall x y, on_curve (x, y) -> emul 4 (x, y) = ezero -> (x = 0 /\ y * y = 1) \/ (y = 0 /\ x * x = 1).
Proof.
  intros x y H E. rewrite emul_4 in E by exact H. pose proof (eadd_on _ _ H H) as H2.
  assert (X : fst (eadd (x, y) (x, y)) = 0).
  { destruct (eadd (x, y) (x, y)) as (a, b). destruct (double_zero a b H2 E) as (Ea & _). exact Ea. }
  unfold on_curve in H. destruct (double_x0 x y H X) as [K|K]; [ left | right ]; (split; [ exact K | ]); rewrite K in H.
  - replace (y * y) with (0 * 0 + y * y) by ring. rewrite H. ring.
  - replace (x * x) with (x * x + 0 * 0) by ring. rewrite H. ring.
Qed.
Transparent eadd.
Lemma shift_y : forall x y b, b * b = 1 -> eadd (x, y) (0, b) = (x * b, y * b).
Proof. intros x y b _. unfold eadd. apply f_equal2; field; (let H := fresh in intro H; apply fone_nz; rewrite <- H; ring). Qed.
Lemma shift_x : forall x y a, a * a = 1 -> eadd (x, y) (a, 0) = (a * y, - (a * x)).
Proof. intros x y a _. unfold eadd. apply f_equal2; field; (let H := fresh in intro H; apply fone_nz; rewrite <- H; ring). Qed.
Opaque eadd.
Transparent phi.
Lemma phi_shift : forall Q T, on_curve Q -> on_curve T -> emul 4 T = ezero -> phi (eadd Q T) = phi Q.
Proof.
  intros (x, y) (a, b) HQ HT E. destruct (torsion4 a b HT E) as [(-> & K)|(-> & K)].
  - rewrite shift_y by exact K. unfold phi.
    replace (mkF 2 * (x * b) * (y * b)) with (mkF 2 * x * y * (b * b)) by ring.
    replace (y * b * (y * b)) with (y * y * (b * b)) by ring. replace (x * b * (x * b)) with (x * x * (b * b)) by ring. rewrite K.
    apply f_equal2; apply f_equal2; ring.
  - rewrite shift_x by exact K. unfold phi.
    replace (mkF 2 * (a * y) * - (a * x)) with (- (mkF 2 * x * y * (a * a))) by ring.
    replace (- (a * x) * - (a * x)) with (x * x * (a * a)) by ring. replace (a * y * (a * y)) with (y * y * (a * a)) by ring. rewrite K.
    pose proof (phi_t_nz x y HQ) as N. apply f_equal2.
    + apply div_eq; [ | exact N | ring ]. intro Z. apply N. transitivity (- (x * x * 1 - y * y * 1)); [ ring | rewrite Z; ring ].
    + apply f_equal2; ring.
Qed.
Opaque phi.
Lemma emul4_diff : forall P Q, on_curve P -> on_curve Q -> emul 4 P = emul 4 Q -> exists T, on_curve T /\ emul 4 T = ezero /\ Q = eadd P T.
Proof.
  intros P Q HP HQ E. exists (eadd (eneg P) Q). pose proof (eneg_on P HP) as HN.
  split; [ apply eadd_on; assumption | ]. split.
  - rewrite emul_eadd, emul_eneg, E by assumption. apply eadd_neg_l. apply emul_on. exact HQ.
  - rewrite <- eadd_assoc by assumption. rewrite eadd_neg by exact HP. symmetry. apply eadd_0_l.
Qed.
Lemma phi_4 : forall P Q, on_curve P -> on_curve Q -> emul 4 P = emul 4 Q -> phi P = phi Q.
Proof.
  intros P Q HP HQ E. destruct (emul4_diff P Q HP HQ E) as (T & HT & ET & EQ). rewrite EQ. symmetry. apply phi_shift; assumption.
Qed.
