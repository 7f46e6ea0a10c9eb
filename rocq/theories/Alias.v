(* extended_point.rs: the result of every operation depends on the field values of the coordinates
   only, and a common factor -1 of the coordinates of the input disappears in point_scalar_mul.
   Consequence: public keys that differ by a point of order dividing 4 behave identically. *)
From Coq Require Import ZArith List Bool Lia Ring.
From Verif Require Import SpecField SpecBytes SpecScalar SpecCurve SpecDecode SpecEd448 SpecVerify Base Arith Bytes Constants32 BigNumber ScalarModel
  Niels WnafTable Errors ExtendedPoint Eddsa Goldilocks.
From Verif Require Import LimbKara LimbMul LimbOps LimbOps2 LimbSer Field FieldOps ScalarProofs Edwards Isogeny PointOps PointMul BaseTables Recode DoubleMul Decode Total Ed448 Verify Equation Facts Torsion.
Import ListNotations.
Open Scope Z_scope.
Local Notation t2l := tight_loose.

(* two results, when there are two, are related *)
Definition par {A : Type} (P : A -> A -> Prop) (o o' : option A) : Prop :=
  match o, o' with Some r, Some r' => P r r' | _, _ => True end.
Lemma par_bind : forall (A B : Type) (P : A -> A -> Prop) (Q : B -> B -> Prop) o o' (f f' : A -> option B),
  par P o o' -> (forall r r', P r r' -> par Q (f r) (f' r')) -> par Q (bind o f) (bind o' f').
Proof.
  intros A B P Q [r|] [r'|] f f' H K; cbn [bind par] in *; auto.
  unfold par. destruct (f r); exact I.
Qed.
Lemma par_some : forall (A : Type) (P : A -> A -> Prop) r r', P r r' -> par P (Some r) (Some r').
Proof. intros A P r r' H. exact H. Qed.
Lemma par_use : forall (A : Type) (P : A -> A -> Prop) o o' r r', par P o o' -> o = Some r -> o' = Some r' -> P r r'.
Proof. intros A P o o' r r' H -> ->. exact H. Qed.
Lemma par_same : forall (A : Type) (P : A -> A -> Prop) o, (forall r, o = Some r -> P r r) -> par P o o.
Proof. intros A P [r|] H; cbn [par]; auto. Qed.

(* numbers whose field values differ by the factor s *)
Definition rt (s : Fp) (a a' : bn) : Prop := tight a /\ tight a' /\ F a' = fmul s (F a).
Definition rl (s : Fp) (a a' : bn) : Prop := loose a /\ loose a' /\ F a' = fmul s (F a).
Open Scope F_scope.
Lemma rt_rl : forall s a a', rt s a a' -> rl s a a'.
Proof. intros s a a' (H1 & H2 & H3). split; [ exact (t2l _ H1) | ]. split; [ exact (t2l _ H2) | exact H3 ]. Qed.
Lemma mul_R : forall s t a a' b b', rl s a a' -> rl t b b' -> rt (s * t) (mul a b) (mul a' b').
Proof.
  intros s t a a' b b' (A1 & A2 & A3) (B1 & B2 & B3).
  destruct (mul_F a b A1 B1) as (M1 & M2). destruct (mul_F a' b' A2 B2) as (N1 & N2).
  split; [ exact M1 | ]. split; [ exact N1 | ]. rewrite N2, M2, A3, B3. ring.
Qed.
Lemma square_R : forall s a a', rl s a a' -> rt (s * s) (square a) (square a').
Proof.
  intros s a a' (A1 & A2 & A3). destruct (square_F a A1) as (M1 & M2). destruct (square_F a' A2) as (N1 & N2).
  split; [ exact M1 | ]. split; [ exact N1 | ]. rewrite N2, M2, A3. ring.
Qed.
Lemma add_R : forall s a a' b b', rl s a a' -> rl s b b' -> rt s (add a b) (add a' b').
Proof.
  intros s a a' b b' (A1 & A2 & A3) (B1 & B2 & B3).
  destruct (add_F a b A1 B1) as (M1 & M2). destruct (add_F a' b' A2 B2) as (N1 & N2).
  split; [ exact M1 | ]. split; [ exact N1 | ]. rewrite N2, M2, A3, B3. ring.
Qed.
Lemma add_raw_R : forall s a a' b b', rt s a a' -> rt s b b' -> rl s (add_raw a b) (add_raw a' b').
Proof.
  intros s a a' b b' (A1 & A2 & A3) (B1 & B2 & B3).
  destruct (add_raw_F a b A1 B1) as (M1 & M2). destruct (add_raw_F a' b' A2 B2) as (N1 & N2).
  split; [ exact M1 | ]. split; [ exact N1 | ]. rewrite N2, M2, A3, B3. ring.
Qed.
Lemma sub_R : forall s a a' b b', rl s a a' -> rt s b b' -> par (rt s) (sub a b) (sub a' b').
Proof.
  intros s a a' b b' (A1 & A2 & A3) (B1 & B2 & B3).
  destruct (sub_F a b A1 B1) as (r & E & M1 & M2). destruct (sub_F a' b' A2 B2) as (r' & E' & N1 & N2).
  rewrite E, E'. apply par_some. split; [ exact M1 | ]. split; [ exact N1 | ]. rewrite N2, M2, A3, B3. ring.
Qed.
Lemma subx_R : forall s a a' b b' n, (3 <= n <= 4)%Z -> rl s a a' -> rl s b b' -> par (rt s) (sub_x_bias a b n) (sub_x_bias a' b' n).
Proof.
  intros s a a' b b' n Hn (A1 & A2 & A3) (B1 & B2 & B3).
  destruct (sub_x_bias_F a b n A1 B1 Hn) as (r & E & M1 & M2). destruct (sub_x_bias_F a' b' n A2 B2 Hn) as (r' & E' & N1 & N2).
  rewrite E, E'. apply par_some. split; [ exact M1 | ]. split; [ exact N1 | ]. rewrite N2, M2, A3, B3. ring.
Qed.
Lemma mul_signed_R : forall s a a', rl s a a' ->
  par (rt s) (mul_with_signed_curve_constant a (2 * EDWARDS_D - 2)) (mul_with_signed_curve_constant a' (2 * EDWARDS_D - 2)).
Proof.
  intros s a a' (A1 & A2 & A3).
  destruct (mul_signed_F a (2 * EDWARDS_D - 2) A1 ltac:(unfold EDWARDS_D; lia)) as (r & E & M1 & M2).
  destruct (mul_signed_F a' (2 * EDWARDS_D - 2) A2 ltac:(unfold EDWARDS_D; lia)) as (r' & E' & N1 & N2).
  rewrite E, E'. apply par_some. split; [ exact M1 | ]. split; [ exact N1 | ]. rewrite N2, M2, A3. ring.
Qed.
Lemma neg_R : forall s a a' b, rt s a a' -> par (rt s) (conditional_negate a (mask b)) (conditional_negate a' (mask b)).
Proof.
  intros s a a' b (A1 & A2 & A3).
  destruct (conditional_negate_F a b A1) as (r & E & M1 & M2). destruct (conditional_negate_F a' b A2) as (r' & E' & N1 & N2).
  rewrite E, E'. apply par_some. split; [ exact M1 | ]. split; [ exact N1 | ]. rewrite N2, M2, A3. destruct b; ring.
Qed.
Lemma invert_R : forall a a', rt 1 a a' -> par (rt 1) (invert a) (invert a').
Proof.
  intros a a' (A1 & A2 & A3).
  destruct (invert_F a A1) as (r & E & M1 & M2). destruct (invert_F a' A2) as (r' & E' & N1 & N2).
  rewrite E, E'. apply par_some. split; [ exact M1 | ]. split; [ exact N1 | ].
  rewrite N2, M2. assert (EQ : F a' = F a) by (rewrite A3; ring). rewrite EQ. ring.
Qed.
Lemma rt_factor : forall s t a a', s = t -> rt s a a' -> rt t a a'.
Proof. intros s t a a' ->. auto. Qed.
Lemma rt_refl : forall a, tight a -> rt 1 a a.
Proof. intros a H. split; [ exact H | ]. split; [ exact H | ring ]. Qed.
Lemma rl_eq : forall s a a', rl s a a' -> s = 1 -> F a' = F a.
Proof. intros s a a' (_ & _ & E) ->. rewrite E. ring. Qed.

Definition rp (s : Fp) (p p' : point) : Prop :=
  rt s (px p) (px p') /\ rt s (py p) (py p') /\ rt s (pz p) (pz p') /\ rt s (ExtendedPoint.pt p) (ExtendedPoint.pt p').
Definition rn (s : Fp) (n n' : niels) : Prop := rt s (na n) (na n') /\ rt s (nb n) (nb n') /\ rt s (nc n) (nc n').
Definition rpn (s : Fp) (m m' : pniels) : Prop := rn s (pn m) (pn m') /\ rt s (pnz m) (pnz m').

Ltac stepR := eapply par_bind; [ | intros ? ? ?].
Ltac one := match goal with H : _ * _ = 1 |- _ => idtac end.

Lemma sq1 : forall s t, s * s = 1 -> t * t = 1 -> (s * t) * (s * t) = 1.
Proof. intros s t Hs Ht. transitivity ((s * s) * (t * t)); [ ring | rewrite Hs, Ht; ring ]. Qed.

Lemma double_R : forall s p p' b, s * s = 1 -> rp s p p' -> par (rp 1) (double_internal p b) (double_internal p' b).
Proof.
  intros s p p' b Hs (Hx & Hy & Hz & Ht). unfold double_internal. cbv zeta.
  pose proof (rt_factor _ _ _ _ Hs (square_R _ _ _ (rt_rl _ _ _ Hx))) as Hc.
  pose proof (rt_factor _ _ _ _ Hs (square_R _ _ _ (rt_rl _ _ _ Hy))) as Ha.
  pose proof (add_raw_R _ _ _ _ _ Hc Ha) as Hd.
  pose proof (rt_factor _ _ _ _ Hs (square_R _ _ _ (add_raw_R _ _ _ _ _ Hx Hy))) as Hb.
  pose proof (rt_factor _ _ _ _ Hs (square_R _ _ _ (rt_rl _ _ _ Hz))) as Hzz.
  pose proof (add_raw_R _ _ _ _ _ Hzz Hzz) as Hz2.
  eapply par_bind; [ apply (subx_R 1); [ lia | apply rt_rl; exact Hb | exact Hd ] | ]. intros b1 b1' Hb1.
  eapply par_bind; [ apply (sub_R 1); [ apply rt_rl; exact Ha | exact Hc ] | ]. intros t t' Ht1.
  eapply par_bind; [ apply (subx_R 1); [ lia | exact Hz2 | apply rt_rl; exact Ht1 ] | ]. intros a a' Ha1.
  apply par_some. assert (E1 : 1 * 1 = 1) by ring. unfold rp. cbn [px py pz ExtendedPoint.pt].
  split; [ apply (rt_factor _ _ _ _ E1); apply mul_R; apply rt_rl; assumption | ].
  split; [ apply (rt_factor _ _ _ _ E1); apply mul_R; [ apply rt_rl; assumption | assumption ] | ].
  split; [ apply (rt_factor _ _ _ _ E1); apply mul_R; apply rt_rl; assumption | ].
  destruct b; cbn [negb]; [ exact Ht1 | apply (rt_factor _ _ _ _ E1); apply mul_R; [ apply rt_rl; assumption | assumption ] ].
Qed.

(* addition: factor s of the point, u of the cached point; the z of the point already has factor s u *)
Definition rq (s u : Fp) (p p' : point) : Prop :=
  rt s (px p) (px p') /\ rt s (py p) (py p') /\ rt (s * u) (pz p) (pz p') /\ rt s (ExtendedPoint.pt p) (ExtendedPoint.pt p').
Lemma add_niels_R : forall s u p p' n n' b, s * s = 1 -> u * u = 1 -> b = false \/ s = 1 -> rq s u p p' -> rn u n n' ->
  par (rp 1) (add_niels_to_extended p n b) (add_niels_to_extended p' n' b).
Proof.
  intros s u p p' n n' b Hs Hu Hb (Hx & Hy & Hz & Ht) (Ha & Hb' & Hc). unfold add_niels_to_extended. cbv zeta.
  assert (E1 : u * s = s * u) by ring. pose proof (sq1 s u Hs Hu) as E2.
  eapply par_bind; [ apply (sub_R s); [ apply rt_rl; exact Hy | exact Hx ] | ]. intros b1 b1' Hb1.
  pose proof (rt_factor _ _ _ _ E1 (mul_R _ _ _ _ _ _ (rt_rl _ _ _ Ha) (rt_rl _ _ _ Hb1))) as Ha1.
  pose proof (rt_factor _ _ _ _ E1 (mul_R _ _ _ _ _ _ (rt_rl _ _ _ Hb') (add_raw_R _ _ _ _ _ Hx Hy))) as Hy1.
  pose proof (rt_factor _ _ _ _ E1 (mul_R _ _ _ _ _ _ (rt_rl _ _ _ Hc) (rt_rl _ _ _ Ht))) as Hx1.
  pose proof (add_raw_R _ _ _ _ _ Ha1 Hy1) as Hc1.
  eapply par_bind; [ apply (sub_R (s * u)); [ apply rt_rl; exact Hy1 | exact Ha1 ] | ]. intros b2 b2' Hb2.
  eapply par_bind; [ apply (sub_R (s * u)); [ apply rt_rl; exact Hz | exact Hx1 ] | ]. intros y2 y2' Hy2.
  pose proof (add_raw_R _ _ _ _ _ Hx1 Hz) as Ha2.
  apply par_some. unfold rp. cbn [px py pz ExtendedPoint.pt].
  split; [ apply (rt_factor _ _ _ _ E2); apply mul_R; apply rt_rl; assumption | ].
  split; [ apply (rt_factor _ _ _ _ E2); apply mul_R; assumption | ].
  split; [ apply (rt_factor _ _ _ _ E2); apply mul_R; [ assumption | apply rt_rl; assumption ] | ].
  destruct b; cbn [negb]; [ destruct Hb as [Hb|Hb]; [ discriminate | rewrite Hb in Ht; exact Ht ] | ].
  apply (rt_factor _ _ _ _ E2); apply mul_R; [ apply rt_rl; assumption | assumption ].
Qed.
Lemma sub_niels_R : forall s u p p' n n' b, s * s = 1 -> u * u = 1 -> b = false \/ s = 1 -> rq s u p p' -> rn u n n' ->
  par (rp 1) (sub_niels_from_extended_point p n b) (sub_niels_from_extended_point p' n' b).
Proof.
  intros s u p p' n n' b Hs Hu Hb (Hx & Hy & Hz & Ht) (Ha & Hb' & Hc). unfold sub_niels_from_extended_point. cbv zeta.
  assert (E1 : u * s = s * u) by ring. pose proof (sq1 s u Hs Hu) as E2.
  eapply par_bind; [ apply (sub_R s); [ apply rt_rl; exact Hy | exact Hx ] | ]. intros b1 b1' Hb1.
  pose proof (rt_factor _ _ _ _ E1 (mul_R _ _ _ _ _ _ (rt_rl _ _ _ Hb') (rt_rl _ _ _ Hb1))) as Ha1.
  pose proof (rt_factor _ _ _ _ E1 (mul_R _ _ _ _ _ _ (rt_rl _ _ _ Ha) (add_raw_R _ _ _ _ _ Hx Hy))) as Hy1.
  pose proof (rt_factor _ _ _ _ E1 (mul_R _ _ _ _ _ _ (rt_rl _ _ _ Hc) (rt_rl _ _ _ Ht))) as Hx1.
  pose proof (add_raw_R _ _ _ _ _ Ha1 Hy1) as Hc1.
  eapply par_bind; [ apply (sub_R (s * u)); [ apply rt_rl; exact Hy1 | exact Ha1 ] | ]. intros b2 b2' Hb2.
  pose proof (add_raw_R _ _ _ _ _ Hz Hx1) as Hy2.
  eapply par_bind; [ apply (sub_R (s * u)); [ apply rt_rl; exact Hz | exact Hx1 ] | ]. intros a2 a2' Ha2.
  apply par_some. unfold rp. cbn [px py pz ExtendedPoint.pt].
  split; [ apply (rt_factor _ _ _ _ E2); apply mul_R; [ assumption | apply rt_rl; assumption ] | ].
  split; [ apply (rt_factor _ _ _ _ E2); apply mul_R; [ apply rt_rl; assumption | assumption ] | ].
  split; [ apply (rt_factor _ _ _ _ E2); apply mul_R; [ apply rt_rl; assumption | assumption ] | ].
  destruct b; cbn [negb]; [ destruct Hb as [Hb|Hb]; [ discriminate | rewrite Hb in Ht; exact Ht ] | ].
  apply (rt_factor _ _ _ _ E2); apply mul_R; [ apply rt_rl; assumption | assumption ].
Qed.
Lemma rp_rq : forall s u p p' m m', rp s p p' -> rt u m m' ->
  rq s u (MkPoint (px p) (py p) (mul (pz p) m) (ExtendedPoint.pt p)) (MkPoint (px p') (py p') (mul (pz p') m') (ExtendedPoint.pt p')).
Proof.
  intros s u p p' m m' (Hx & Hy & Hz & Ht) Hm. unfold rq. cbn [px py pz ExtendedPoint.pt].
  split; [ exact Hx | ]. split; [ exact Hy | ]. split; [ apply mul_R; apply rt_rl; assumption | exact Ht ].
Qed.
Lemma add_pniels_R : forall s u p p' n n' b, s * s = 1 -> u * u = 1 -> b = false \/ s = 1 -> rp s p p' -> rpn u n n' ->
  par (rp 1) (add_projected_niels_to_extended p n b) (add_projected_niels_to_extended p' n' b).
Proof.
  intros s u p p' n n' b Hs Hu Hb Hp (Hn & Hm). unfold add_projected_niels_to_extended. cbv zeta.
  apply (add_niels_R s u); auto. apply rp_rq; assumption.
Qed.
Lemma sub_pniels_R : forall s u p p' n n' b, s * s = 1 -> u * u = 1 -> b = false \/ s = 1 -> rp s p p' -> rpn u n n' ->
  par (rp 1) (sub_projected_niels_from_extended_point p n b) (sub_projected_niels_from_extended_point p' n' b).
Proof.
  intros s u p p' n n' b Hs Hu Hb Hp (Hn & Hm). unfold sub_projected_niels_from_extended_point. cbv zeta.
  apply (sub_niels_R s u); auto. apply rp_rq; assumption.
Qed.
Lemma to_pniels_R : forall s p p', rp s p p' -> par (rpn s) (to_projected_niels p) (to_projected_niels p').
Proof.
  intros s p p' (Hx & Hy & Hz & Ht). unfold to_projected_niels. cbv zeta.
  eapply par_bind; [ apply (sub_R s); [ apply rt_rl; exact Hy | exact Hx ] | ]. intros a a' Ha.
  eapply par_bind; [ apply (mul_signed_R s); apply rt_rl; exact Ht | ]. intros c c' Hc.
  apply par_some. unfold rpn, rn. cbn [pn pnz na nb nc].
  split; [ split; [ exact Ha | ]; split; [ apply add_R; apply rt_rl; assumption | exact Hc ] | apply add_R; apply rt_rl; assumption ].
Qed.
Lemma pniels_to_extended_R : forall u m m', u * u = 1 -> rpn u m m' -> par (rp 1) (pniels_to_extended m) (pniels_to_extended m').
Proof.
  intros u m m' Hu ((Ha & Hb & Hc) & Hz). unfold pniels_to_extended. cbv zeta.
  eapply par_bind; [ apply (sub_R u); [ apply rt_rl; exact Hb | exact Ha ] | ]. intros q q' Hq.
  pose proof (add_R _ _ _ _ _ (rt_rl _ _ _ Hb) (rt_rl _ _ _ Ha)) as He.
  apply par_some. unfold rp. cbn [px py pz ExtendedPoint.pt].
  split; [ apply (rt_factor _ _ _ _ Hu); apply mul_R; apply rt_rl; assumption | ].
  split; [ apply (rt_factor _ _ _ _ Hu); apply mul_R; apply rt_rl; assumption | ].
  split; [ apply (rt_factor _ _ _ _ Hu); apply square_R; apply rt_rl; assumption | ].
  apply (rt_factor _ _ _ _ Hu); apply mul_R; apply rt_rl; assumption.
Qed.
Lemma niels_negate_R : forall u n n' b, rn u n n' ->
  par (rn u) (niels_conditional_negate n (mask b)) (niels_conditional_negate n' (mask b)).
Proof.
  intros u n n' b (Ha & Hb & Hc). unfold niels_conditional_negate.
  rewrite (conditional_swap_ok (na n) (nb n) b) by (apply tight_max; first [ exact (proj1 Ha) | exact (proj1 Hb) ]).
  rewrite (conditional_swap_ok (na n') (nb n') b) by (apply tight_max; first [ exact (proj1 (proj2 Ha)) | exact (proj1 (proj2 Hb)) ]).
  pose proof (neg_R u (nc n) (nc n') b Hc) as HN.
  destruct b; cbv iota; (eapply par_bind; [ exact HN | ]; intros c c' Hc'; apply par_some; unfold rn; cbn [na nb nc]; auto).
Qed.
Definition rpnx (m m' : pniels) : Prop := exists u, u * u = 1 /\ rpn u m m'.
Lemma one_sq : 1 * 1 = 1.
Proof. ring. Qed.

Lemma window_loop_R : forall n s u p p' st st', s * s = 1 -> u * u = 1 -> rp s p p' -> rpn u st st' ->
  par (Forall2 rpnx) (window_loop n p st) (window_loop n p' st').
Proof.
  induction n as [|n IH]; intros s u p p' st st' Hs Hu Hp Hst; cbn [window_loop]; [ apply par_some; constructor | ].
  eapply par_bind; [ apply (add_pniels_R s u); auto | ]. intros p1 p1' H1.
  eapply par_bind; [ apply (to_pniels_R 1); exact H1 | ]. intros e e' He.
  eapply par_bind; [ apply (IH 1 u); auto using one_sq | ]. intros l l' Hl.
  apply par_some. constructor; [ exists 1; split; [ exact one_sq | exact He ] | exact Hl ].
Qed.
Lemma prepare_R : forall s p p', s * s = 1 -> rp s p p' -> par (Forall2 rpnx) (prepare_fixed_window p) (prepare_fixed_window p').
Proof.
  intros s p p' Hs Hp. unfold prepare_fixed_window.
  eapply par_bind; [ apply (double_R s); assumption | ]. intros p2 p2' H2.
  eapply par_bind; [ apply (to_pniels_R 1); exact H2 | ]. intros st st' Hst.
  eapply par_bind; [ apply (to_pniels_R s); exact Hp | ]. intros e e' He.
  eapply par_bind; [ apply (window_loop_R 15 s 1); auto using one_sq | ]. intros l l' Hl.
  apply par_some. constructor; [ exists s; split; [ exact Hs | exact He ] | exact Hl ].
Qed.
Lemma double5_R : forall p p', rp 1 p p' -> par (rp 1) (double5 p) (double5 p').
Proof.
  intros p p' Hp. unfold double5.
  do 4 (eapply par_bind; [ apply (double_R 1); [ exact one_sq | eassumption ] | ]; intros ? ? ?).
  apply (double_R 1); [ exact one_sq | assumption ].
Qed.
Lemma Forall2_nth_error : forall (A : Type) (P : A -> A -> Prop) l l' i x x', Forall2 P l l' ->
  nth_error l i = Some x -> nth_error l' i = Some x' -> P x x'.
Proof.
  intros A P l l' i x x' H. revert i. induction H as [|a b l l' Hab Hl IH]; intros [|i] E E'; cbn [nth_error] in *; try discriminate.
  - injection E as <-. injection E' as <-. exact Hab.
  - exact (IH i E E').
Qed.
Lemma Forall2_len : forall (A : Type) (P : A -> A -> Prop) l l', Forall2 P l l' -> length l = length l'.
Proof. intros A P l l' H. induction H as [|a b l l' _ _ IH]; cbn [length]; [ reflexivity | rewrite IH; reflexivity ]. Qed.
Lemma znth_R : forall (A : Type) (P : A -> A -> Prop) l l' i, Forall2 P l l' -> par P (znth l i) (znth l' i).
Proof.
  intros A P l l' i H. unfold znth. rewrite (Forall2_len _ _ _ _ H).
  destruct (_ && _); [ | exact I ]. unfold par.
  destruct (nth_error l (Z.to_nat i)) as [x|] eqn:E; [ | exact I ]. destruct (nth_error l' (Z.to_nat i)) as [x'|] eqn:E'; [ | exact I ].
  exact (Forall2_nth_error _ _ _ _ _ _ _ H E E').
Qed.
Definition ro (o o' : option point) : Prop :=
  match o, o' with Some p, Some p' => rp 1 p p' | None, None => True | _, _ => False end.
Lemma scalar_mul_loop_R : forall fuel s mult mult' i out out', wf s -> Forall2 rpnx mult mult' -> (i <= 445)%Z ->
  ro out out' -> par ro (scalar_mul_loop fuel s mult i out) (scalar_mul_loop fuel s mult' i out').
Proof.
  induction fuel as [|f IH]; intros s mult mult' i out out' Hs HM Hi Ho; cbn [scalar_mul_loop].
  - destruct (i >=? 0)%Z; [ exact I | exact Ho ].
  - destruct (Z.geb_spec i 0) as [H|H]; [ | exact Ho ].
    rewrite window_digit_ok by (assumption || lia). rewrite !bind_Some. cbv beta iota.
    set (b := win (v32 s) i). pose proof (win_range (v32 s) i) as R. fold b in R. clearbody b.
    destruct (digit_split b R) as (E1 & E2). rewrite E2, E1.
    eapply par_bind; [ apply (znth_R _ _ _ _ _ HM) | ]. intros m m' (u & Hu & Hm1 & Hm2).
    eapply par_bind; [ apply (niels_negate_R u); exact Hm1 | ]. intros n n' Hn. cbv beta zeta.
    eapply (par_bind _ _ (rp 1)).
    + destruct out as [o|]; destruct out' as [o'|]; cbn [ro] in Ho; try contradiction.
      * eapply par_bind; [ apply double5_R; exact Ho | ]. intros o5 o5' H5.
        apply (add_pniels_R 1 u); auto using one_sq. split; assumption.
      * apply (pniels_to_extended_R u); [ exact Hu | split; assumption ].
    + intros o1 o1' Ho1. apply IH; [ exact Hs | exact HM | lia | exact Ho1 ].
Qed.
Lemma rp_new : rp 1 point_new point_new.
Proof. pose proof (rt_refl _ zero_bn_tight). unfold rp, point_new. cbn [px py pz ExtendedPoint.pt]. auto. Qed.
Lemma point_scalar_mul_R : forall s p p' k, s * s = 1 -> rp s p p' -> red k -> par (rp 1) (point_scalar_mul p k) (point_scalar_mul p' k).
Proof.
  intros s p p' k Hs Hp Hk. unfold point_scalar_mul.
  destruct (adjust_ok k Hk) as (t & Et & Rt & Vt). rewrite Et, !bind_Some. cbv beta zeta.
  eapply par_bind; [ apply (prepare_R s); assumption | ]. intros l l' Hl.
  eapply par_bind; [ apply (scalar_mul_loop_R 100 (halve t) l l' _ None None (proj1 Rt) Hl); [ vm_compute; congruence | exact I ] | ].
  intros [o|] [o'|] Ho; cbn [ro] in Ho; try contradiction; apply par_some; [ exact Ho | exact rp_new ].
Qed.

(* the double multiplication, on equal field values *)
Lemma wnaf_loop_R : forall n p p' st st', rp 1 p p' -> rpn 1 st st' -> par (Forall2 (rpn 1)) (wnaf_loop n p st) (wnaf_loop n p' st').
Proof.
  induction n as [|n IH]; intros p p' st st' Hp Hst; cbn [wnaf_loop]; [ apply par_some; constructor | ].
  eapply par_bind; [ apply (add_pniels_R 1 1); auto using one_sq | ]. intros p1 p1' H1.
  eapply par_bind; [ apply (to_pniels_R 1); exact H1 | ]. intros e e' He.
  eapply par_bind; [ apply IH; eassumption | ]. intros l l' Hl.
  apply par_some. constructor; assumption.
Qed.
Lemma prepare_wnaf_R : forall p p', rp 1 p p' -> par (Forall2 (rpn 1)) (decaf_prepare_wnaf_table p) (decaf_prepare_wnaf_table p').
Proof.
  intros p p' Hp. unfold decaf_prepare_wnaf_table.
  eapply par_bind; [ apply (to_pniels_R 1); exact Hp | ]. intros e e' He.
  eapply par_bind; [ apply (double_R 1); [ exact one_sq | exact Hp ] | ]. intros p2 p2' H2.
  eapply par_bind; [ apply (to_pniels_R 1); exact H2 | ]. intros st st' Hst.
  eapply par_bind; [ apply (add_pniels_R 1 1); auto using one_sq | ]. intros p3 p3' H3.
  eapply par_bind; [ apply (to_pniels_R 1); exact H3 | ]. intros e3 e3' He3.
  eapply par_bind; [ apply (wnaf_loop_R 6); eassumption | ]. intros l l' Hl.
  apply par_some. constructor; [ exact He | ]. constructor; assumption.
Qed.
Lemma rn_table : Forall (fun n => rn 1 n n) DECAF_WNAF_TABLE.
Proof.
  apply Forall_forall. intros n Hn. apply (In_nth _ _ n) in Hn. destruct Hn as (i & Hi & <-).
  change (length DECAF_WNAF_TABLE) with 32%nat in Hi.
  destruct (wnaf_table_ok (Z.of_nat i) ltac:(lia)) as (m & E & H).
  rewrite (znth_spec _ _ _ n) in E by (change (length DECAF_WNAF_TABLE) with 32%nat; lia).
  rewrite Nat2Z.id in E. apply (f_equal (fun o => match o with Some x => x | None => n end)) in E. cbv beta iota in E. rewrite E. destruct H as ((Ta & Tb & Tc) & _).
  unfold rn. auto using rt_refl.
Qed.
Lemma table_R : forall i, par (rn 1) (znth DECAF_WNAF_TABLE i) (znth DECAF_WNAF_TABLE i).
Proof.
  intro i. apply par_same. intros n E. pose proof rn_table as H. rewrite Forall_forall in H. apply H.
  unfold znth in E. destruct (_ && _); [ | discriminate ]. exact (nth_error_In _ _ E).
Qed.
Lemma var_step_R : forall cv cp i c tbl tbl' out out', Forall2 (rpn 1) tbl tbl' -> rp 1 out out' ->
  par (rp 1) (var_step cv cp i c tbl out) (var_step cv cp i c tbl' out').
Proof.
  intros cv cp i c tbl tbl' out out' HT Ho. unfold var_step. destruct cv; [ | exact Ho ].
  destruct (addend c >? 0)%Z.
  - eapply par_bind; [ apply (znth_R _ _ _ _ _ HT) | ]. intros m m' Hm. apply (add_pniels_R 1 1); auto using one_sq.
  - eapply (par_bind _ _ (fun a a' => a = a')); [ apply par_same; reflexivity | ]. intros a a' <-.
    eapply par_bind; [ apply (znth_R _ _ _ _ _ HT) | ]. intros m m' Hm. apply (sub_pniels_R 1 1); auto using one_sq.
Qed.
Lemma rp_rq1 : forall p p', rp 1 p p' -> rq 1 1 p p'.
Proof.
  intros p p' (Hx & Hy & Hz & Ht). split; [ exact Hx | ]. split; [ exact Hy | ]. split; [ | exact Ht ].
  apply (rt_factor 1); [ ring | exact Hz ].
Qed.
Lemma pre_step_R : forall cp i c out out', rp 1 out out' -> par (rp 1) (pre_step cp i c out) (pre_step cp i c out').
Proof.
  intros cp i c out out' Ho. apply rp_rq1 in Ho as Hq. unfold pre_step. destruct cp; [ | exact Ho ].
  destruct (addend c >? 0)%Z.
  - eapply par_bind; [ apply table_R | ]. intros m m' Hm. apply (add_niels_R 1 1); auto using one_sq.
  - eapply (par_bind _ _ (fun a a' => a = a')); [ apply par_same; reflexivity | ]. intros a a' <-.
    eapply par_bind; [ apply table_R | ]. intros m m' Hm. apply (sub_niels_R 1 1); auto using one_sq.
Qed.
Lemma eq_R : forall (A : Type) (o : option A), par (fun a a' => a = a') o o.
Proof. intros A o. apply par_same. reflexivity. Qed.
Lemma double_mul_loop_R : forall fuel Cv Cp tbl tbl' i contv contp out out', Forall2 (rpn 1) tbl tbl' -> rp 1 out out' ->
  par (rp 1) (double_mul_loop fuel Cv Cp tbl i contv contp out) (double_mul_loop fuel Cv Cp tbl' i contv contp out').
Proof.
  induction fuel as [|f IH]; intros Cv Cp tbl tbl' i contv contp out out' HT Ho; cbn [double_mul_loop].
  - destruct (i >=? 0)%Z; [ exact I | exact Ho ].
  - destruct (i >=? 0)%Z; [ | exact Ho ].
    eapply par_bind; [ apply eq_R | ]. intros c_v c_v' <-.
    eapply par_bind; [ apply eq_R | ]. intros c_p c_p' <-. cbv zeta.
    eapply par_bind; [ apply (double_R 1); [ exact one_sq | exact Ho ] | ]. intros o1 o1' H1.
    eapply par_bind; [ apply var_step_R; [ exact HT | exact H1 ] | ]. intros o2 o2' H2.
    eapply par_bind; [ apply pre_step_R; exact H2 | ]. intros o3 o3' H3.
    apply IH; assumption.
Qed.
Lemma niels_to_extended_R : forall m m', rn 1 m m' -> par (rp 1) (niels_to_extended m) (niels_to_extended m').
Proof.
  intros m m' (Ha & Hb & Hc). unfold niels_to_extended. cbv zeta.
  eapply par_bind; [ apply (sub_R 1); [ apply rt_rl; exact Hb | exact Ha ] | ]. intros x x' Hx.
  pose proof (add_R _ _ _ _ _ (rt_rl _ _ _ Hb) (rt_rl _ _ _ Ha)) as He.
  apply par_some. unfold rp. cbn [px py pz ExtendedPoint.pt].
  split; [ exact Hx | ]. split; [ exact He | ]. split; [ apply rt_refl; exact one_tight | ].
  apply (rt_factor _ _ _ _ one_sq). apply mul_R; apply rt_rl; assumption.
Qed.
Lemma rp_identity : rp 1 identity_point identity_point.
Proof. pose proof (rt_refl _ zero_tight). pose proof (rt_refl _ one_tight). unfold rp, identity_point. cbn [px py pz ExtendedPoint.pt]. auto. Qed.
Lemma double_scalamul_R : forall p p' s t, rp 1 p p' ->
  par (rp 1) (point_double_scalamul_non_secret p s t) (point_double_scalamul_non_secret p' s t).
Proof.
  intros p p' s t Hp. unfold point_double_scalamul_non_secret. cbv zeta.
  eapply par_bind; [ apply eq_R | ]. intros (cpre & r1) x <-.
  eapply par_bind; [ apply eq_R | ]. intros (cvar & r2) x <-.
  eapply par_bind; [ apply prepare_wnaf_R; exact Hp | ]. intros tbl tbl' HT.
  eapply par_bind; [ apply eq_R | ]. intros cv0 x <-.
  eapply par_bind; [ apply eq_R | ]. intros cp0 x <-.
  eapply (par_bind _ _ (fun a a' : point * Z * Z * Z => snd a = snd a' /\ snd (fst a) = snd (fst a') /\ snd (fst (fst a)) = snd (fst (fst a')) /\
    rp 1 (fst (fst (fst a))) (fst (fst (fst a'))))).
  - destruct (power cv0 >? power cp0)%Z; [ | destruct ((power cv0 =? power cp0) && (power cv0 >=? 0))%Z ].
    + eapply par_bind; [ apply (znth_R _ _ _ _ _ HT) | ]. intros e e' He.
      eapply par_bind; [ apply (pniels_to_extended_R 1); [ exact one_sq | exact He ] | ]. intros o o' Ho.
      apply par_some. cbn [fst snd]. auto.
    + eapply par_bind; [ apply (znth_R _ _ _ _ _ HT) | ]. intros e e' He.
      eapply par_bind; [ apply (pniels_to_extended_R 1); [ exact one_sq | exact He ] | ]. intros o o' Ho.
      eapply par_bind; [ apply table_R | ]. intros n n' Hn.
      eapply par_bind; [ apply (add_niels_R 1 1); auto using one_sq, rp_rq1 | ]. intros o2 o2' Ho2.
      apply par_some. cbn [fst snd]. auto.
    + eapply par_bind; [ apply table_R | ]. intros n n' Hn.
      eapply par_bind; [ apply niels_to_extended_R; exact Hn | ]. intros o o' Ho.
      apply par_some. cbn [fst snd]. auto.
  - intros (((o & i) & a) & b) (((o' & i') & a') & b'). cbn [fst snd]. intros (-> & -> & -> & Ho).
    destruct (i' <? 0)%Z; [ exact rp_identity | apply double_mul_loop_R; assumption ].
Qed.

(* encoding and comparison see field values only *)
Lemma rt_F : forall a a', rt 1 a a' -> F a' = F a.
Proof. intros a a' (_ & _ & E). rewrite E. ring. Qed.
Lemma encode_R : forall p p', rp 1 p p' -> par (fun l l' => l = l') (eddsa_like_encode p) (eddsa_like_encode p').
Proof.
  intros p p' (Hx & Hy & Hz & Ht). unfold eddsa_like_encode. cbv zeta.
  assert (SQ : forall a a', rt 1 a a' -> rt 1 (square a) (square a')) by (intros a a' H; exact (rt_factor _ _ _ _ one_sq (square_R _ _ _ (rt_rl _ _ _ H)))).
  assert (MU : forall a a' b b', rt 1 a a' -> rt 1 b b' -> rt 1 (mul a b) (mul a' b'))
    by (intros a a' b b' H K; exact (rt_factor _ _ _ _ one_sq (mul_R _ _ _ _ _ _ (rt_rl _ _ _ H) (rt_rl _ _ _ K)))).
  assert (AD : forall a a' b b', rt 1 a a' -> rt 1 b b' -> rt 1 (add a b) (add a' b'))
    by (intros a a' b b' H K; exact (add_R _ _ _ _ _ (rt_rl _ _ _ H) (rt_rl _ _ _ K))).
  eapply par_bind; [ apply (sub_R 1); [ apply rt_rl; apply AD; apply SQ; assumption | apply SQ; apply AD; assumption ] | ]. intros y y' H1.
  eapply par_bind; [ apply (sub_R 1); [ apply rt_rl; apply SQ; assumption | apply SQ; assumption ] | ]. intros z z' H2.
  eapply par_bind; [ apply (sub_R 1); [ apply rt_rl; apply AD; apply SQ; assumption | assumption ] | ]. intros t t' H3.
  eapply par_bind; [ apply invert_R; apply MU; [ apply AD; apply SQ; assumption | assumption ] | ]. intros zi zi' H4.
  pose proof (MU _ _ _ _ (MU _ _ _ _ H2 (AD _ _ _ _ (SQ _ _ Hx) (SQ _ _ Hy))) H4) as K1.
  pose proof (MU _ _ _ _ (MU _ _ _ _ H3 H1) H4) as K2.
  rewrite (serialize_F _ (proj1 K1)), (serialize_F _ (proj1 (proj2 K1))), !bind_Some. cbv beta.
  rewrite (low_bit_F _ (proj1 K2)), (low_bit_F _ (proj1 (proj2 K2))), !bind_Some. cbv beta.
  rewrite (rt_F _ _ K1), (rt_F _ _ K2). reflexivity.
Qed.
Lemma rp_tight : forall s p p', rp s p p' -> tight_point p /\ tight_point p'.
Proof.
  intros s p p' ((X1 & X2 & _) & (Y1 & Y2 & _) & (Z1 & Z2 & _) & (T1 & T2 & _)).
  split; (split; [ | split; [ | split ] ]); assumption.
Qed.
Lemma mod_equal_R : forall r p p', tight_point r -> rp 1 p p' -> mod_equal r p = mod_equal r p'.
Proof.
  intros r p p' Hr Hp. destruct (rp_tight _ _ _ Hp) as (T1 & T2).
  rewrite (mod_equal_ok r p Hr T1), (mod_equal_ok r p' Hr T2).
  destruct Hp as (Hx & Hy & _). rewrite (rt_F _ _ Hx), (rt_F _ _ Hy). reflexivity.
Qed.

(* the decoder: adding a point of order dividing 4 multiplies all four coordinates by 1 or -1 *)
Lemma raw_shift : forall p p' x y a b, raw_point p x y -> raw_point p' (fst (eadd (x, y) (a, b))) (snd (eadd (x, y) (a, b))) ->
  on_curve (a, b) -> emul 4 (a, b) = ezero -> exists s, s * s = 1 /\ rp s p p'.
Proof.
  intros p p' x y a b ((X1 & Y1 & Z1 & T1) & HX & HY & HZ & HT) ((X2 & Y2 & Z2 & T2) & HX' & HY' & HZ' & HT') HC H4.
  unfold denominator in HZ, HZ'.
  destruct (torsion4 a b HC H4) as [(-> & K)|(-> & K)].
  - rewrite shift_y in HX', HY', HZ', HT' by exact K. cbn [fst snd] in *.
    assert (K1 : x * b * (x * b) = x * x) by (transitivity (x * x * (b * b)); [ ring | rewrite K; ring ]).
    assert (K3 : y * b * (y * b) = y * y) by (transitivity (y * y * (b * b)); [ ring | rewrite K; ring ]).
    assert (K2 : mkF 2 * (x * b) * (y * b) = mkF 2 * x * y) by (transitivity (mkF 2 * x * y * (b * b)); [ ring | rewrite K; ring ]).
    rewrite K1, K3, K2 in HX'. rewrite K1, K3 in HY', HZ'. rewrite K1, K3, K2 in HT'.
    exists 1. split; [ exact one_sq | ]. unfold rp, rt.
    rewrite HX, HX', HY, HY', HZ, HZ', HT, HT'.
    split; [ split; [ exact X1 | split; [ exact X2 | ring ] ] | ]. split; [ split; [ exact Y1 | split; [ exact Y2 | ring ] ] | ].
    split; [ split; [ exact Z1 | split; [ exact Z2 | ring ] ] | split; [ exact T1 | split; [ exact T2 | ring ] ] ].
  - rewrite shift_x in HX', HY', HZ', HT' by exact K. cbn [fst snd] in *.
    assert (K1 : a * y * (a * y) = y * y) by (transitivity (y * y * (a * a)); [ ring | rewrite K; ring ]).
    assert (K2 : - (a * x) * - (a * x) = x * x) by (transitivity (x * x * (a * a)); [ ring | rewrite K; ring ]).
    assert (K3 : mkF 2 * (a * y) * - (a * x) = - (mkF 2 * x * y)) by (transitivity (- (mkF 2 * x * y) * (a * a)); [ ring | rewrite K; ring ]).
    rewrite K1, K2, K3 in HX'. rewrite K1, K2 in HY', HZ'. rewrite K1, K2, K3 in HT'.
    exists (- (1)). split; [ ring | ]. unfold rp, rt.
    rewrite HX, HX', HY, HY', HZ, HZ', HT, HT'.
    split; [ split; [ exact X1 | split; [ exact X2 | ring ] ] | ]. split; [ split; [ exact Y1 | split; [ exact Y2 | ring ] ] | ].
    split; [ split; [ exact Z1 | split; [ exact Z2 | ring ] ] | split; [ exact T1 | split; [ exact T2 | ring ] ] ].
Qed.
Lemma decode_alias : forall pub pub' A T p p', bytes pub -> bytes pub' -> length pub = 57%nat -> length pub' = 57%nat ->
  denotes pub A -> denotes pub' (eadd A T) -> on_curve T -> emul 4 T = ezero ->
  eddsa_like_decode pub = Some (Ok p) -> eddsa_like_decode pub' = Some (Ok p') -> rp 1 p p'.
Proof.
  intros pub pub' (x, y) (a, b) p p' B1 B2 L1 L2 N1 N2 HC H4 E1 E2.
  destruct (decode_shape pub L1 B1) as (r & R1 & K1). destruct (decode_shape pub' L2 B2) as (r' & R2 & K2). cbv zeta in K1, K2.
  rewrite E1 in K1. rewrite E2 in K2.
  pose proof (denotes_dpoint _ _ N1) as D1. pose proof (denotes_dpoint _ _ N2) as D2. unfold dpoint in D1, D2.
  pose proof (f_equal fst D1) as DX. pose proof (f_equal snd D1) as DY. unfold fst in DX. unfold snd in DY. rewrite <- DX, <- DY in R1.
  pose proof (f_equal fst D2) as DX2. pose proof (f_equal snd D2) as DY2. unfold fst at 2 in DX2. unfold snd at 2 in DY2.
  rewrite <- DX2, <- DY2 in R2.
  destruct (raw_shift _ _ _ _ _ _ R1 R2 HC H4) as (s & Hs & HR).
  pose proof (point_scalar_mul_R s r r' inv4 Hs HR (proj1 inv4_red)) as M.
  destruct (accepts pub _); [ | discriminate K1 ]. destruct (accepts pub' _); [ | discriminate K2 ].
  destruct (point_scalar_mul r inv4) as [q|]; [ | discriminate K1 ]. destruct (point_scalar_mul r' inv4) as [q'|]; [ | discriminate K2 ].
  rewrite bind_Some in K1, K2. injection K1 as ->. injection K2 as ->. exact M.
Qed.

Section Hash.
Variable xof : list Z -> nat -> list Z.
Hypothesis XOF : is_xof xof.

Theorem alias_same : forall pub pub' sig message A T, bytes pub -> bytes pub' -> bytes sig ->
  pub <> repeat 0%Z 57 -> pub' <> repeat 0%Z 57 -> decodable pub -> decodable pub' ->
  denotes pub A -> denotes pub' (eadd A T) -> on_curve T -> emul 4 T = ezero ->
  ed448_verify xof pub sig message = ed448_verify xof pub' sig message.
Proof.
  intros pub pub' sig message A T B1 B2 B3 Z1 Z2 D1 D2 N1 N2 HC H4.
  pose proof (proj1 D1) as L1. pose proof (proj1 D2) as L2.
  pose proof (verify_classes xof XOF pub sig message B1 B3) as C1. pose proof (verify_classes xof XOF pub' sig message B2 B3) as C2.
  unfold verify_class in C1, C2.
  assert (E1 : bytes_eqb pub zero_public_key = false) by (apply not_true_is_false; intro E; apply bytes_eqb_eq in E; exact (Z1 E)).
  assert (E2 : bytes_eqb pub' zero_public_key = false) by (apply not_true_is_false; intro E; apply bytes_eqb_eq in E; exact (Z2 E)).
  rewrite E1 in C1. rewrite E2 in C2. rewrite !orb_false_l in C1, C2.
  destruct (bytes_eqb sig zero_signature) eqn:ZS; [ rewrite C1, C2; reflexivity | ].
  rewrite L1 in C1. rewrite L2 in C2. change (negb (57 =? 57)%nat) with false in C1, C2. cbv iota in C1, C2.
  destruct (decodable_dec pub) as [_|K]; [ | exfalso; exact (K D1) ]. destruct (decodable_dec pub') as [_|K]; [ | exfalso; exact (K D2) ].
  destruct (length sig <? 114)%nat eqn:LS; [ rewrite C1, C2; reflexivity | ].
  destruct (decodable_dec (sig_R sig)) as [DR|_]; [ clear C1 C2 | rewrite C1, C2; reflexivity ].
  apply Nat.ltb_ge in LS.
  destruct (verify_good xof XOF pub sig message B1 B3 LS D1 DR) as (p & r & penc & r4 & pk & b & G1 & G2 & G3 & G4 & G5 & _ & _ & G6 & G7 & G8).
  destruct (verify_good xof XOF pub' sig message B2 B3 LS D2 DR) as (p' & r' & penc' & r4' & pk' & b' & G1' & G2' & G3' & G4' & G5' & _ & _ & G6' & G7' & G8').
  assert (EB : b = b').
  { apply some_inj. rewrite <- G6, <- G6'.
    destruct G7 as (q & p2 & t & e & c & d & s & J1 & J2 & J3 & J4 & J5 & J6 & J7 & J8 & J9).
    destruct G7' as (q' & p2' & t' & e' & c' & d' & s' & J1' & J2' & J3' & J4' & J5' & J6' & J7' & J8' & J9').
    assert (t' = t) by congruence. subst t'. assert (r4' = r4) by congruence. subst r4'. assert (s' = s) by congruence. subst s'.
    pose proof (decode_alias pub pub' A T q q' B1 B2 L1 L2 N1 N2 HC H4 J1 J1') as RQ.
    pose proof (par_use _ _ _ _ _ _ (point_scalar_mul_R 1 q q' scalar_four one_sq RQ (proj1 four_red)) J2 J2') as R2.
    pose proof (par_use _ _ _ _ _ _ (encode_R q q' RQ) J5 J5') as RE. cbv beta in RE. subst e'.
    assert (c' = c) by congruence. subst c'. assert (d' = d) by congruence. subst d'.
    pose proof (par_use _ _ _ _ _ _ (double_scalamul_R p2 p2' s d R2) J9 J9') as R3.
    exact (mod_equal_R r4 pk pk' G4 R3). }
  unfold ed448_verify. rewrite E1, E2, ZS. cbv beta iota. rewrite !orb_false_l. rewrite G8, G8', EB. reflexivity.
Qed.
End Hash.
