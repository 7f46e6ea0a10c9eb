(* How often an honest signature is refused. *)
From Coq Require Import ZArith List Bool Lia.
From Verif Require Import Base SpecField SpecBytes SpecScalar SpecCurve SpecDecode SpecEd448 SpecVerify SpecInternal SpecUniform SpecQueries SpecForger.
From Verif Require Import Bytes Errors ExtendedPoint Eddsa Goldilocks Game.
From Verif Require Import Field Edwards Isogeny CombMul BaseTables PrimeQ Decode Ed448 Order Equation Facts Sound Kernel Uniform Count Bind Protocol Structure SmallKeys Queries Transcripts Unbias Forking Forger GameFork GameHop GameReal.
Import ListNotations.

Open Scope Z_scope.
Local Opaque strings q448 below.

Section Roots.
Open Scope F_scope.
(* polynomials, lowest coefficient first *)
Fixpoint peval (c : list Fp) (x : Fp) : Fp := match c with [] => 0 | a :: c' => a + x * peval c' x end.
Fixpoint padd (c e : list Fp) : list Fp := match c, e with a :: c', b :: e' => (a + b) :: padd c' e' | [], _ => [] | _, [] => c end.
Fixpoint quotient (c : list Fp) (x0 : Fp) : list Fp := match c with [] => [] | _ :: c' => padd c' (map (fmul x0) (quotient c' x0)) end.
Lemma padd_length : forall c e, length (padd c e) = length c.
Proof. induction c as [ | a c IH ]; intros [ | b e ]; cbn [padd length]; try reflexivity. rewrite IH. reflexivity. Qed.
Lemma quotient_length : forall c x0, length (quotient c x0) = pred (length c).
Proof. intros [ | a c ] x0; [ reflexivity | ]. cbn [quotient length]. rewrite padd_length. reflexivity. Qed.
Lemma padd_eval : forall c e x, (length e <= length c)%nat -> peval (padd c e) x = peval c x + peval e x.
Proof.
  induction c as [ | a c IH ]; intros [ | b e ] x L; cbn [padd peval length] in *; try (lia || ring). rewrite IH by lia. ring.
Qed.
Lemma padd_last : forall c e z, (length e < length c)%nat -> last (padd c e) z = last c z.
Proof.
  induction c as [ | a c IH ]; intros [ | b e ] z L; cbn [padd length] in *; try lia; try reflexivity.
  destruct c as [ | a' c ]; [ cbn [length] in L; lia | ]. destruct e as [ | b' e ]; [ reflexivity | ]. change (last (padd (a' :: c) (b' :: e)) z = last (a' :: c) z). apply IH. lia.
Qed.
Lemma scale_eval : forall c k x, peval (map (fmul k) c) x = k * peval c x.
Proof. induction c as [ | a c IH ]; intros k x; cbn [map peval]; [ ring | ]. rewrite IH. ring. Qed.
Lemma quotient_eval : forall c x0 x, peval c x = peval c x0 + (x - x0) * peval (quotient c x0) x.
Proof.
  induction c as [ | a c IH ]; intros x0 x; cbn [peval quotient]; [ ring | ].
  rewrite padd_eval, scale_eval by (rewrite map_length, quotient_length; apply Nat.le_pred_l). rewrite (IH x0 x) at 1. 
  assert (E : peval c x = peval c x0 + (x - x0) * peval (quotient c x0) x) by apply IH. rewrite E at 1. ring.
Qed.
Lemma root_count : forall n c, length c = S n -> last c 0 <> 0 -> forall l, NoDup l -> (forall x, In x l -> peval c x = 0) -> (length l <= n)%nat.
Proof.
  induction n as [ | n IH ]; intros c L NZ l ND R.
  - destruct l as [ | x l ]; [ cbn [length]; lia | ]. exfalso. destruct c as [ | a [ | b c ] ]; try discriminate L. apply NZ. cbn [last]. rewrite <- (R x (or_introl eq_refl)). cbn [peval]. ring.
  - destruct l as [ | x0 l ]; [ cbn [length]; lia | ]. cbn [length]. apply le_n_S. inversion ND as [ | ? ? NI ND' ]; subst. apply (IH (quotient c x0)).
    + rewrite quotient_length, L. reflexivity.
    + destruct c as [ | a [ | b c ] ]; try discriminate L. cbn [quotient]. rewrite padd_last; [ exact NZ | ]. rewrite map_length, padd_length. cbn [length]. apply Nat.lt_succ_diag_r.
    + exact ND'.
    + intros x I. pose proof (quotient_eval c x0 x) as E. rewrite (R x (or_intror I)), (R x0 (or_introl eq_refl)) in E.
      assert (E' : (x - x0) * peval (quotient c x0) x = 0) by (rewrite E; ring). apply fmul_zero in E' as [ E' | E' ]; [ | exact E' ]. exfalso. apply NI.
      replace x0 with x; [ exact I | ]. replace x with (x - x0 + x0) by ring. rewrite E'. ring.
Qed.
(* the y coordinates of points with a given denominator *)
Definition denominator_poly (v : Fp) : list Fp :=
  [- (1) - v; 0; mkF 2 * ecd + mkF 2 + mkF 2 * ecd * v; 0; - (mkF 6 * ecd) - ecd * ecd * v; 0; mkF 2 * ecd + mkF 2 * ecd * ecd; 0; - (ecd * ecd)].
Lemma two : mkF 2 = 1 + 1. Proof. apply F_eq. vm_compute. reflexivity. Qed.
Lemma six : mkF 6 = 1 + 1 + 1 + 1 + 1 + 1. Proof. apply F_eq. vm_compute. reflexivity. Qed.
Lemma denominator_root : forall x y, on_curve (x, y) -> peval (denominator_poly (denominator x y)) y = 0.
Proof.
  intros x y C. unfold on_curve in C. unfold denominator. set (X := x * x) in *. set (u := y * y) in *. assert (EX : X * (1 - ecd * u) = 1 - u).
  { replace (X * (1 - ecd * u)) with (X + u - (1 + ecd * (X * u)) + 1 - u) by ring. rewrite C. ring. }
  set (v := (u - X) * (mkF 2 - (X + u))). assert (EV : v * ((1 - ecd * u) * (1 - ecd * u)) = (u * (1 - ecd * u) - (1 - u)) * ((mkF 2 - u) * (1 - ecd * u) - (1 - u))).
  { rewrite <- EX. unfold v. ring. }
  transitivity ((u * (1 - ecd * u) - (1 - u)) * ((mkF 2 - u) * (1 - ecd * u) - (1 - u)) - v * ((1 - ecd * u) * (1 - ecd * u))); [ | rewrite EV; ring ].
  unfold denominator_poly. cbn [peval]. unfold u. rewrite two, six. ring.
Qed.
Lemma lead : forall v, last (denominator_poly v) 0 <> 0.
Proof. intros v. cbn [denominator_poly last]. intro E. apply (f_equal fval) in E. revert E. vm_compute. discriminate. Qed.
Lemma few_roots : forall v l, NoDup l -> (forall y, In y l -> peval (denominator_poly v) y = 0) -> (length l <= 8)%nat.
Proof. intros v l ND R. exact (root_count 8 (denominator_poly v) eq_refl (lead v) l ND R). Qed.
Lemma same_square : forall a b, a * a = b * b -> a = b \/ a = - b.
Proof.
  intros a b E. assert (Z0 : (a - b) * (a + b) = 0) by (replace ((a - b) * (a + b)) with (a * a - b * b) by ring; rewrite E; ring).
  apply fmul_zero in Z0. destruct Z0 as [ Z0 | Z0 ]; [ left | right ].
  - replace a with (a - b + b) by ring. rewrite Z0. ring.
  - replace a with (a + b - b) by ring. rewrite Z0. ring.
Qed.
(* points with the same y *)
Lemma same_y : forall P Q, on_curve P -> on_curve Q -> snd P = snd Q -> Q = P \/ Q = eneg P.
Proof.
  intros (x, y) (x', y') C C' E. cbn [snd] in E. subst y'. unfold on_curve in C, C'.
  assert (S0 : forall a, a * a + y * y = 1 + ecd * (a * a * (y * y)) -> a * a * (1 - ecd * (y * y)) = 1 - y * y).
  { intros a H. replace (a * a * (1 - ecd * (y * y))) with (a * a + y * y - (1 + ecd * (a * a * (y * y))) + 1 - y * y) by ring. rewrite H. ring. }
  pose proof (S0 x C) as S1. pose proof (S0 x' C') as S2. pose proof (dv_nz y) as NZ. 
  assert (E2 : (x' * x' - x * x) * (1 - ecd * (y * y)) = 0) by (replace ((x' * x' - x * x) * (1 - ecd * (y * y))) with (x' * x' * (1 - ecd * (y * y)) - x * x * (1 - ecd * (y * y))) by ring; rewrite S1, S2; ring).
  apply fmul_zero in E2 as [ E2 | E2 ].
  - assert (E3 : x' * x' = x * x) by (replace (x' * x') with (x' * x' - x * x + x * x) by ring; rewrite E2; ring).
    apply same_square in E3 as [ -> | -> ]; [ left | right ]; reflexivity.
  - exfalso. apply NZ. rewrite <- E2. unfold dv. ring.
Qed.
End Roots.

Lemma at_most_two : forall (T : Type) (f : T -> bool) (h : T -> T) l, NoDup l -> (forall x y, In x l -> In y l -> f x = true -> f y = true -> y = x \/ y = h x) -> lsum (fun x => b2z (f x)) l <= 2.
Proof.
  intros T f h. induction l as [ | x l IH ]; intros ND H; [ cbn [lsum]; lia | ]. cbn [lsum]. inversion ND as [ | ? ? NI ND' ]; subst. destruct (f x) eqn:E.
  - cbn [b2z]. assert (K : lsum (fun x => b2z (f x)) l <= 1); [ | lia ]. apply at_most_one; [ exact ND' | ]. intros y z Iy Iz F G.
    destruct (H x y (or_introl eq_refl) (or_intror Iy) E F) as [ -> | -> ]; [ contradiction | ]. destruct (H x z (or_introl eq_refl) (or_intror Iz) E G) as [ -> | -> ]; [ contradiction | reflexivity ].
  - cbn [b2z]. rewrite Z.add_0_l. apply IH; [ exact ND' | ]. intros y z Iy Iz. apply H; right; assumption.
Qed.
Definition base_y (r : Z) : Z := fval (snd (emul r ebase)).
Lemma base_y_twice : forall r r', 0 <= r < q448 -> 0 <= r' < q448 -> base_y r = base_y r' -> r' = r \/ r' = (- r) mod q448.
Proof.
  intros r r' R R' E. apply F_eq in E. destruct (same_y _ _ (on_B r) (on_B r') E) as [ K | K ].
  - left. apply base_inj in K. rewrite !Z.mod_small in K by assumption. exact K.
  - right. rewrite <- Edwards.emul_opp in K. apply base_inj in K. rewrite Z.mod_small in K by assumption. exact K.
Qed.
(* every y belongs to at most two multiples of B *)
Lemma fibers : forall h : Z -> bool, lsum (fun r => b2z (h (base_y r))) (below q448) <= 2 * lsum (fun y => b2z (h y)) (below p448).
Proof.
  intro h. assert (EP : exists BP, BP = below p448) by (exists (below p448); reflexivity). destruct EP as (BP & EP). assert (EQ : exists BQ, BQ = below q448) by (exists (below q448); reflexivity). destruct EQ as (BQ & EQ).
  rewrite <- EP, <- EQ.
  eapply Z.le_trans; [ apply (lsum_le _ (fun r => lsum (fun y => b2z (h y) * b2z (base_y r =? y)) BP)) | ].
  - intros r _. assert (I : In (base_y r) BP) by (rewrite EP; apply in_below; apply fval_range). generalize dependent (base_y r). clear. intros z I.
    induction BP as [ | y BP IH ]; [ destruct I | ]. cbn [lsum]. assert (P : 0 <= lsum (fun y => b2z (h y) * b2z (z =? y)) BP) by (apply lsum_nonneg; intros y' _; pose proof (b2z_nonneg (h y')); pose proof (b2z_nonneg (z =? y')); nia).
    destruct I as [ -> | I ].
    + rewrite Z.eqb_refl. cbn [b2z]. rewrite Z.mul_1_r. lia.
    + pose proof (b2z_nonneg (h y)). pose proof (b2z_nonneg (z =? y)). specialize (IH I). nia.
  - rewrite lsum_swap, <- lsum_mul. apply lsum_le. intros y _. rewrite lsum_mul, Z.mul_comm. apply Z.mul_le_mono_nonneg_r; [ apply b2z_nonneg | ].
    apply (at_most_two Z (fun r => base_y r =? y) (fun r => (- r) mod q448)); [ rewrite EQ; apply below_nodup | ].
    intros r r' I I' E E'. rewrite EQ in I, I'. apply (proj1 (in_below _ _)) in I. apply (proj1 (in_below _ _)) in I'. apply Z.eqb_eq in E, E'. apply base_y_twice; [ exact I | exact I' | congruence ].
Qed.
Definition bad_point (P : ept) : bool := negb (range_test (fval (snd P))) || low_zero (denominator (fst P) (snd P)).
Lemma bad_point_ok : forall P, bad_point P = false <-> decoder_tests P.
Proof. intro P. unfold bad_point, decoder_tests. rewrite orb_false_iff, negb_false_iff. reflexivity. Qed.
Definition is_root (v : Fp) (y : Z) : bool := fval (peval (denominator_poly v) (mkF y)) =? 0.
Lemma root_tally : forall v, lsum (fun y => b2z (is_root v y)) (below p448) <= 8.
Proof.
  intro v. assert (K : lsum (fun y => b2z (is_root v y)) (below p448) = Z.of_nat (length (filter (is_root v) (below p448)))).
  { generalize (below p448). clear. induction l as [ | y l IH ]; [ reflexivity | ]. cbn [lsum filter]. rewrite IH. destruct (is_root v y); cbn [b2z length]; lia. }
  rewrite K, <- (map_length mkF). apply (Nat2Z.inj_le _ 8). apply (few_roots v).
  - apply nodup_map.
    + intros a b Ia Ib E. apply filter_In in Ia as (Ia & _). apply filter_In in Ib as (Ib & _). apply (proj1 (in_below _ _)) in Ia. apply (proj1 (in_below _ _)) in Ib.
      apply (f_equal fval) in E. rewrite !fval_mkF, !Z.mod_small in E by assumption. exact E.
    + apply NoDup_filter. apply below_nodup.
  - intros y I. apply in_map_iff in I as (z & <- & I). apply filter_In in I as (_ & I). unfold is_root in I. apply Z.eqb_eq in I. apply F_eq. rewrite I. reflexivity.
Qed.
(* the number of multiples of B which the decoder refuses *)
Definition bad_bound : Z := 2 * (2113536 * 2 ^ 392) + 2 ^ 28 * 16.
Lemma bad_residues : lsum (fun r => b2z (bad_point (emul r ebase))) (below q448) <= bad_bound.
Proof.
  eapply Z.le_trans; [ apply (lsum_le _ (fun r => b2z (negb (range_test (base_y r))) + lsum (fun j => b2z (is_root (mkF (j * 2 ^ 420)) (base_y r))) (below (2 ^ 28)))) | ].
  - intros r _. unfold bad_point. change (fval (snd (emul r ebase))) with (base_y r).
    assert (N : 0 <= lsum (fun j => b2z (is_root (mkF (j * 2 ^ 420)) (base_y r))) (below (2 ^ 28))) by (apply lsum_nonneg; intros j _; apply b2z_nonneg).
    destruct (range_test (base_y r)); cbn [negb orb b2z]; [ | lia ]. rewrite Z.add_0_l. destruct (low_zero _) eqn:LZ; cbn [b2z]; [ | exact N ].
    unfold low_zero in LZ. apply Z.eqb_eq in LZ. set (D := denominator (fst (emul r ebase)) (snd (emul r ebase))) in *.
    assert (ED : D = mkF (fval D / 2 ^ 420 * 2 ^ 420)).
    { rewrite <- (mkF_fval D) at 1. f_equal. rewrite (Z.div_mod (fval D) (2 ^ 420)) at 1 by discriminate. rewrite LZ, Z.add_0_r. apply Z.mul_comm. }
    assert (IJ : In (fval D / 2 ^ 420) (below (2 ^ 28))).
    { apply (proj2 (in_below _ _)). pose proof (fval_range D) as FR. split; [ apply Z.div_pos; lia | ]. apply Z.div_lt_upper_bound; [ reflexivity | ]. eapply Z.lt_trans; [ apply FR | reflexivity ]. }
    assert (RT : is_root D (base_y r) = true).
    { unfold is_root, base_y. rewrite mkF_fval. pose proof (on_B r) as C. unfold D. destruct (emul r ebase) as (x, y). cbn [fst snd]. rewrite (denominator_root x y C). reflexivity. }
    rewrite ED in RT. revert IJ RT. generalize (fval D / 2 ^ 420) (base_y r) (below (2 ^ 28)). clear. intros j y l I RT. induction l as [ | a l IH ]; [ destruct I | ]. cbn [lsum].
    assert (N : 0 <= lsum (fun j => b2z (is_root (mkF (j * 2 ^ 420)) y)) l) by (apply lsum_nonneg; intros i _; apply b2z_nonneg).
    destruct I as [ -> | I ]; [ rewrite RT; cbn [b2z]; lia | ]. specialize (IH I). pose proof (b2z_nonneg (is_root (mkF (a * 2 ^ 420)) y)). lia.
  - rewrite lsum_add. unfold bad_bound. apply Z.add_le_mono.
    + eapply Z.le_trans; [ apply (fibers (fun y => negb (range_test y))) | ]. rewrite <- refused_below_p, lsum_tally. apply Z.le_refl.
    + rewrite lsum_swap. eapply Z.le_trans; [ apply (lsum_le _ (fun _ => 16)) | ].
      * intros j _. eapply Z.le_trans; [ apply (fibers (is_root (mkF (j * 2 ^ 420)))) | ]. pose proof (root_tally (mkF (j * 2 ^ 420))). lia.
      * rewrite lsum_const, below_length by discriminate. apply Z.le_refl.
Qed.

Lemma emul_mod_base : forall k, emul (k mod q448) ebase = emul k ebase.
Proof. intro k. apply base_inj. apply Z.mod_mod. discriminate. Qed.
Lemma bad_nonces : lsum (fun d => b2z (bad_point (emul (le_val d) ebase))) (strings 114) <= (share + 1) * bad_bound.
Proof.
  rewrite (lsum_ext _ (fun d => b2z (bad_point (emul (le_val d mod q448) ebase)))) by (intros d _; rewrite emul_mod_base; reflexivity).
  eapply Z.le_trans; [ apply (residues (fun r => b2z (bad_point (emul r ebase)))); intros r _; apply b2z_nonneg | ].
  apply Z.mul_le_mono_nonneg_l; [ unfold share; assert (0 <= 256 ^ 114 / q448) by (apply Z.div_pos; [ apply Z.pow_nonneg; lia | reflexivity ]); lia | exact bad_residues ].
Qed.
(* the bits of the scalar *)
Definition middle (u : list Z) : Z := le_val (firstn 56 u) mod 2 ^ 447 / 4.
Lemma middle_range : forall u, 0 <= middle u < 2 ^ 445.
Proof. intro u. unfold middle. pose proof (Z.mod_pos_bound (le_val (firstn 56 u)) (2 ^ 447) eq_refl) as K. revert K. generalize (le_val (firstn 56 u) mod 2 ^ 447). intros z K. split; [ apply Z.div_pos; lia | apply Z.div_lt_upper_bound; lia ]. Qed.
Section Keys.
Variables (U : list (list Z)) (c : Z).
Hypothesis c_nonneg : 0 <= c.
Hypothesis share_of : forall t, 0 <= t < 2 ^ 445 -> lsum (fun u => b2z (middle u =? t)) U <= c.
Lemma bad_keys : lsum (fun u => b2z (bad_point (emul (secret_scalar u) ebase))) U <= c * bad_bound.
Proof.
  assert (EQ : exists BQ, BQ = below q448) by (exists (below q448); reflexivity). destruct EQ as (BQ & EQ).
  eapply Z.le_trans; [ apply (lsum_le _ (fun u => lsum (fun r => b2z (bad_point (emul r ebase)) * b2z (secret_scalar u mod q448 =? r)) BQ)) | ].
  - intros u _. rewrite <- emul_mod_base. assert (I : In (secret_scalar u mod q448) BQ) by (rewrite EQ; apply (proj2 (in_below _ _)); apply Z.mod_pos_bound; reflexivity).
    revert I. generalize (secret_scalar u mod q448). clear. intros z I.
    induction BQ as [ | y BP IH ]; [ destruct I | ]. cbn [lsum].
    assert (P : 0 <= lsum (fun r => b2z (bad_point (emul r ebase)) * b2z (z =? r)) BP) by (apply lsum_nonneg; intros y' _; pose proof (b2z_nonneg (bad_point (emul y' ebase))); pose proof (b2z_nonneg (z =? y')); nia).
    destruct I as [ -> | I ].
    + rewrite Z.eqb_refl. cbn [b2z]. rewrite Z.mul_1_r. lia.
    + pose proof (b2z_nonneg (bad_point (emul y ebase))). pose proof (b2z_nonneg (z =? y)). specialize (IH I). nia.
  - rewrite lsum_swap. eapply Z.le_trans; [ | apply Z.mul_le_mono_nonneg_l; [ exact c_nonneg | exact bad_residues ] ]. rewrite <- EQ, <- lsum_mul. apply lsum_le. intros r _.
    rewrite lsum_mul, Z.mul_comm. apply Z.mul_le_mono_nonneg_r; [ apply b2z_nonneg | ].
    destruct (existsb (fun u => secret_scalar u mod q448 =? r) U) eqn:E.
    + apply existsb_exists in E as (u0 & _ & E0). apply Z.eqb_eq in E0. eapply Z.le_trans; [ | apply (share_of (middle u0)); apply middle_range ]. apply lsum_le. intros u _.
      destruct (Z.eqb_spec (secret_scalar u mod q448) r) as [ E1 | ]; [ | apply b2z_nonneg ].
      assert (M : middle u = middle u0); [ | rewrite M, Z.eqb_refl; apply Z.le_refl ].
      apply scalar_t_inj; [ apply middle_range | apply middle_range | ]. apply base_inj. change (secret_scalar u mod q448 = secret_scalar u0 mod q448). congruence.
    + rewrite (lsum_ext _ (fun _ => 0)), lsum_const; [ lia | ]. intros u I. destruct (secret_scalar u mod q448 =? r) eqn:F; [ | reflexivity ]. exfalso.
      assert (K : existsb (fun u => secret_scalar u mod q448 =? r) U = true); [ | congruence ]. apply existsb_exists. exists u. split; [ exact I | exact F ].
Qed.
End Keys.
Lemma middle_number : forall z, 0 <= z < 2 ^ 456 -> middle (le_bytes 57 z) = z mod 2 ^ 447 / 4.
Proof. intros z Hz. destruct (key_number z Hz) as (_ & K). unfold secret_scalar in K. fold (middle (le_bytes 57 z)) in K. lia. Qed.
Lemma total_n : forall n, Z.of_nat (length (strings n)) = 256 ^ Z.of_nat n.
Proof. intro n. rewrite <- (count_all n), lsum_tally, lsum_const, Z.mul_1_r. reflexivity. Qed.
Lemma bad_digests : lsum (fun d => b2z (bad_point (emul (secret_scalar d) ebase))) (strings 114) <= 256 ^ 57 * (2048 * bad_bound).
Proof.
  change 114%nat with (57 + 57)%nat. rewrite strings_split.
  rewrite (lsum_ext _ (fun u => 256 ^ 57 * b2z (bad_point (emul (secret_scalar u) ebase)))).
  - rewrite lsum_mul. apply Z.mul_le_mono_nonneg_l; [ apply Z.pow_nonneg; lia | ]. apply bad_keys; [ lia | ]. intros t Ht.
    rewrite <- (tally_b2z _ (fun u => middle u =? t)), tally_strings. change (256 ^ Z.of_nat 57) with (2 ^ 456). rewrite <- (bits_count_all t Ht). apply Z.eq_le_incl. apply zsum_ext. intros z Hz. rewrite middle_number by exact Hz. reflexivity.
  - intros u I. apply in_strings in I as (L & _). rewrite (lsum_ext _ (fun _ => b2z (bad_point (emul (secret_scalar u) ebase)))).
    + rewrite lsum_const, (total_n 57). reflexivity.
    + intros v _. unfold secret_scalar. rewrite firstn_app. replace (56 - length u)%nat with 0%nat by lia. rewrite firstn_O, app_nil_r. reflexivity.
Qed.
Lemma bad_expanded : lsum (fun u => b2z (bad_point (emul (secret_scalar u) ebase))) expanded <= 1024 * bad_bound.
Proof.
  apply bad_keys; [ lia | ]. intros t Ht. unfold expanded.
  assert (K : forall (f g : list Z -> bool) l, lsum (fun u => b2z (f u)) (filter g l) = tally (fun u => g u && f u) l).
  { intros f g l. rewrite tally_b2z. induction l as [ | a l IH ]; [ reflexivity | ]. cbn [filter lsum]. destruct (g a); cbn [andb lsum b2z]; rewrite IH; reflexivity. }
  rewrite K, tally_strings. change (256 ^ Z.of_nat 57) with (2 ^ 456). rewrite <- (bits_count t Ht). apply Z.eq_le_incl. apply zsum_ext. intros z Hz. rewrite middle_number by exact Hz. destruct (key_number z Hz) as (-> & _). reflexivity.
Qed.

(* the input of the nonce *)
Definition nonce_input (H : list Z -> nat -> list Z) (key m : list Z) : list Z :=
  rfc_dom ++ (if enc_sign key then le_bytes 57 (secret_scalar key) else skipn 57 (H key 114%nat)) ++ m.
Lemma honest_ok_iff : forall H, is_xof H -> forall key m, length key = 57%nat -> bytes key ->
  negb (honest_ok H key m) = bad_point (emul (key_scalar H key) ebase) || bad_point (emul (le_val (H (nonce_input H key m) 114%nat)) ebase).
Proof.
  intros H X key m L B.
  assert (E1 : ed448_derive_public H key = Some (eencode (emul (key_scalar H key) ebase))).
  { rewrite derive_public_ok by assumption. unfold key_scalar, rfc_public. destruct (enc_sign key); reflexivity. }
  assert (E2 : exists S, ed448_sign H key m = Some (eencode (emul (le_val (H (nonce_input H key m) 114%nat)) ebase) ++ S)).
  { rewrite sign_ok by assumption. unfold nonce_input, rfc_sign, rfc_sign_with. destruct (enc_sign key); eexists; reflexivity. }
  destruct E2 as (S & E2). pose proof (honest_verifies H X key m _ _ L B E1 E2) as V. unfold honest_ok. rewrite E1, E2.
  assert (F1 : firstn 57 (eencode (emul (le_val (H (nonce_input H key m) 114%nat)) ebase) ++ S) = eencode (emul (le_val (H (nonce_input H key m) 114%nat)) ebase)).
  { rewrite firstn_app, eencode_len, Nat.sub_diag, firstn_O, app_nil_r. apply firstn_all2. rewrite eencode_len. apply Nat.le_refl. }
  rewrite F1 in V. rewrite !decodable_eencode in V by apply on_B. rewrite <- !bad_point_ok in V.
  revert V. generalize (ed448_verify H (eencode (emul (key_scalar H key) ebase)) (eencode (emul (le_val (H (nonce_input H key m) 114%nat)) ebase) ++ S) m).
  generalize (bad_point (emul (key_scalar H key) ebase)) (bad_point (emul (le_val (H (nonce_input H key m) 114%nat)) ebase)). clear. intros a b v V.
  destruct v as [ [ [ | ] | e ] | ]; cbn [negb].
  - destruct (proj1 V eq_refl) as (-> & ->). reflexivity.
  - destruct a, b; try reflexivity. discriminate (proj2 V (conj eq_refl eq_refl)).
  - destruct a, b; try reflexivity. discriminate (proj2 V (conj eq_refl eq_refl)).
  - destruct a, b; try reflexivity. discriminate (proj2 V (conj eq_refl eq_refl)).
Qed.
Lemma same_length : forall x y : list Z, length x <> length y -> same_string x y = false.
Proof. intros x y N. destruct (same_string x y) eqn:E; [ | reflexivity ]. apply same_string_eq in E. subst y. contradiction. Qed.
Section Pairs.
Variables (D1 D2 : list (list Z)) (f1 f2 : list Z -> bool) (b1 b2 : Z).
Hypothesis H1 : lsum (fun d => b2z (f1 d)) D1 <= b1.
Hypothesis H2 : lsum (fun d => b2z (f2 d)) D2 <= b2.
Lemma pairs : forall g, (forall d r, In d D1 -> In r D2 -> g (d, r) = f1 d || f2 r) ->
  tally g (list_prod D1 D2) <= Z.of_nat (length D2) * b1 + Z.of_nat (length D1) * b2.
Proof.
  intros g E. rewrite tally_b2z, lsum_prod. eapply Z.le_trans; [ apply (lsum_le _ (fun d => Z.of_nat (length D2) * b2z (f1 d) + b2)) | ].
  - intros d I. eapply Z.le_trans; [ apply (lsum_le _ (fun r => b2z (f1 d) + b2z (f2 r))) | ].
    + intros r J. rewrite E by assumption. destruct (f1 d), (f2 r); cbn [orb b2z]; lia.
    + rewrite lsum_add, lsum_const. lia.
  - rewrite lsum_add, lsum_mul, lsum_const. nia.
Qed.
End Pairs.
Definition bytes_table (T : list (list Z * list Z)) : Prop := forall x a, In (x, a) T -> bytes a.
Lemma seed_run_bad : forall key m T d r, length key = 57%nat -> bytes key -> enc_sign key = false -> bytes_table T ->
  length d = 114%nat -> bytes d -> length r = 114%nat -> bytes r ->
  negb (seed_run key m T (d, r)) = bad_point (emul (secret_scalar d) ebase) || bad_point (emul (le_val r) ebase).
Proof.
  intros key m T d r L B ES BT Ld Bd Lr Br. unfold seed_run. cbn [fst snd].
  set (T' := (key, d) :: (rfc_dom ++ skipn 57 d ++ m, r) :: T).
  assert (X : is_xof (table_xof T')).
  { apply table_is_xof. intros x a [ I | [ I | I ] ]; [ | | exact (BT x a I) ]; injection I as <- <-; assumption. }
  assert (A1 : table_xof T' key 114%nat = d) by (apply table_at; [ unfold T'; cbn [recall]; rewrite same_refl; reflexivity | exact Ld ]).
  assert (A2 : table_xof T' (rfc_dom ++ skipn 57 d ++ m) 114%nat = r).
  { apply table_at; [ | exact Lr ]. unfold T'. cbn [recall]. rewrite same_length, same_refl; [ reflexivity | ].
    rewrite !app_length, skipn_length, Ld, L. cbn [length rfc_dom]. lia. }
  rewrite honest_ok_iff by assumption. unfold nonce_input, key_scalar. rewrite ES, A1, A2. reflexivity.
Qed.
Lemma expanded_run_bad : forall m T d r, bytes_table T -> length d = 57%nat -> bytes d -> enc_sign d = true -> length r = 114%nat -> bytes r ->
  negb (expanded_run m T (d, r)) = bad_point (emul (secret_scalar d) ebase) || bad_point (emul (le_val r) ebase).
Proof.
  intros m T d r BT Ld Bd Ed Lr Br. unfold expanded_run. cbn [fst snd].
  set (T' := (rfc_dom ++ le_bytes 57 (secret_scalar d) ++ m, r) :: T).
  assert (X : is_xof (table_xof T')).
  { apply table_is_xof. intros x a [ I | I ]; [ | exact (BT x a I) ]. injection I as <- <-. assumption. }
  assert (A2 : table_xof T' (rfc_dom ++ le_bytes 57 (secret_scalar d) ++ m) 114%nat = r).
  { apply table_at; [ | exact Lr ]. unfold T'. cbn [recall]. rewrite same_refl. reflexivity. }
  rewrite honest_ok_iff by assumption. unfold nonce_input, key_scalar. rewrite Ed, A2. reflexivity.
Qed.
Theorem seed_complete : forall key m T, In key seeds -> bytes_table T ->
  2 ^ 30 * tally (fun w => negb (seed_run key m T w)) (list_prod (strings 114) (strings 114)) <= 256 ^ 228.
Proof.
  intros key m T IK BT. apply (proj1 (seeds_in _)) in IK as (L & B & ES).
  pose proof bad_digests as K1. pose proof bad_nonces as K2. pose proof (total_n 114) as TN. change (256 ^ Z.of_nat 114) with (256 ^ 114) in TN.
  assert (IS : forall w, In w (strings 114) -> length w = 114%nat /\ bytes w) by (intros w I; exact (proj1 (in_strings 114 w) I)).
  revert K1 K2 TN IS. generalize (strings 114). intros ST K1 K2 TN IS.
  pose proof (pairs ST ST _ _ _ _ K1 K2 (fun w => negb (seed_run key m T w))) as P.
  assert (G : forall d r, In d ST -> In r ST -> negb (seed_run key m T (d, r)) = bad_point (emul (secret_scalar d) ebase) || bad_point (emul (le_val r) ebase)).
  { intros d r Id Ir. destruct (IS d Id) as (Ld & Bd). destruct (IS r Ir) as (Lr & Br). apply seed_run_bad; assumption. }
  specialize (P G). clear G. rewrite TN in P.
  apply Z.le_trans with (2 ^ 30 * (256 ^ 114 * (256 ^ 57 * (2048 * bad_bound)) + 256 ^ 114 * ((share + 1) * bad_bound))); [ apply Z.mul_le_mono_nonneg_l; [ discriminate | exact P ] | ].
  clear. vm_compute. discriminate.
Qed.
Lemma expanded_total : Z.of_nat (length expanded) = 2 ^ 455.
Proof.
  pose proof seeds_count as S. pose proof (total_n 57) as N. unfold expanded, seeds in *. revert S N. generalize (strings 57). intros l S N.
  assert (K : length l = (length (filter enc_sign l) + length (filter (fun k => negb (enc_sign k)) l))%nat).
  { clear. induction l as [ | a l IH ]; [ reflexivity | ]. cbn [filter length]. rewrite IH. destruct (enc_sign a); cbn [negb length]; lia. }
  rewrite K, Nat2Z.inj_add in N. change (256 ^ Z.of_nat 57) with (2 ^ 456) in N. lia.
Qed.
Theorem expanded_complete : forall m T, bytes_table T ->
  2 ^ 30 * tally (fun w => negb (expanded_run m T w)) (list_prod expanded (strings 114)) <= 2 ^ 455 * 256 ^ 114.
Proof.
  intros m T BT. pose proof bad_expanded as K1. pose proof bad_nonces as K2. pose proof (total_n 114) as TN. change (256 ^ Z.of_nat 114) with (256 ^ 114) in TN. pose proof expanded_total as TE.
  assert (IS : forall w, In w (strings 114) -> length w = 114%nat /\ bytes w) by (intros w I; exact (proj1 (in_strings 114 w) I)).
  assert (IE : forall k, In k expanded -> length k = 57%nat /\ bytes k /\ enc_sign k = true).
  { intros k I. apply filter_In in I as (I & E). apply (proj1 (in_strings _ _)) in I as (L & B). split; [ exact L | split; [ exact B | exact E ] ]. }
  revert K1 K2 TN TE IS IE. generalize (strings 114) expanded. intros ST EX K1 K2 TN TE IS IE.
  pose proof (pairs EX ST _ _ _ _ K1 K2 (fun w => negb (expanded_run m T w))) as P.
  assert (G : forall d r, In d EX -> In r ST -> negb (expanded_run m T (d, r)) = bad_point (emul (secret_scalar d) ebase) || bad_point (emul (le_val r) ebase)).
  { intros d r Id Ir. destruct (IE d Id) as (Ld & Bd & Ed). destruct (IS r Ir) as (Lr & Br). apply expanded_run_bad; assumption. }
  specialize (P G). clear G. rewrite TN, TE in P.
  apply Z.le_trans with (2 ^ 30 * (256 ^ 114 * (1024 * bad_bound) + 2 ^ 455 * ((share + 1) * bad_bound))); [ apply Z.mul_le_mono_nonneg_l; [ discriminate | exact P ] | ].
  clear. vm_compute. discriminate.
Qed.
Theorem refused_multiples : tally (fun r => match eddsa_like_decode (eencode (emul r ebase)) with Some (Ok _) => false | _ => true end) (below q448) <= 2 * (2113536 * 2 ^ 392) + 2 ^ 32.
Proof.
  change (2 * (2113536 * 2 ^ 392) + 2 ^ 32) with bad_bound. eapply Z.le_trans; [ | exact bad_residues ]. rewrite tally_b2z. apply lsum_le. intros r _.
  destruct (bad_point (emul r ebase)) eqn:E; [ destruct (eddsa_like_decode _) as [ [ | ] | ]; cbn [b2z]; lia | ].
  apply bad_point_ok in E. rewrite <- decodable_eencode in E by apply on_B.
  destruct (proj1 (proj2 (decode_iff _ (eencode_bytes (emul r ebase)))) E) as (p & ->). apply Z.le_refl.
Qed.
