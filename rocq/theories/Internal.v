(* The internal operations in terms of SpecInternal. *)
From Coq Require Import ZArith List Bool Lia Ring.
From Verif Require Import SpecField SpecBytes SpecScalar SpecCurve SpecDecode SpecEd448 SpecInternal.
From Verif Require Import Base Arith Bytes Constants32 BigNumber ScalarModel Niels CombTable WnafTable Errors ExtendedPoint.
From Verif Require Import LimbKara LimbMul LimbOps LimbOps2 LimbSer LimbDeser Field FieldOps ScalarProofs Edwards Isogeny PointOps PointMul CombMul BaseTables Recode DoubleMul Decode Ed448 Order Equation.
Import ListNotations.
Open Scope Z_scope.

(* translation *)
Lemma words28_v : forall l, words_val 28 l = v28 l.
Proof. induction l as [|x l IH]; [ reflexivity | ]. cbn [words_val v28]. rewrite IH. reflexivity. Qed.
Lemma words32_v : forall l, words_val 32 l = v32 l.
Proof. induction l as [|x l IH]; [ reflexivity | ]. cbn [words_val v32]. rewrite IH. reflexivity. Qed.
Lemma upto_iff : forall M a, limbs_upto M a <-> bn_le M a.
Proof.
  intros M a. split; [ | apply bn_le_limbs ]. destruct a. unfold limbs_upto, limbs. intro H.
  repeat match goal with K : Forall _ (_ :: _) |- _ => inversion K; clear K; subst end. unfold bn_le. repeat apply conj; lia.
Qed.
Lemma carried_iff : forall a, carried a <-> tight a.
Proof. intro a. apply upto_iff. Qed.
Lemma summed_iff : forall a, summed a <-> loose a.
Proof. intro a. apply upto_iff. Qed.
Lemma fe_F : forall a, fe a = F a.
Proof. intro a. unfold fe, F. rewrite words28_v, ev_v28. reflexivity. Qed.
Lemma returns_iff : forall o v, returns_fe o v <-> yields o v.
Proof.
  intros o v. unfold returns_fe, yields. split; intros (r & H1 & H2 & H3); exists r; (split; [ exact H1 | ]); rewrite ?fe_F in *; (split; [ apply carried_iff; exact H2 | exact H3 ]).
Qed.
Lemma words32_iff : forall s, words32 s <-> wf s.
Proof. intro s. unfold words32, wf. reflexivity. Qed.
Lemma reduced_iff : forall s, reduced s <-> red s.
Proof. intro s. unfold reduced, red, sc. rewrite words32_v. reflexivity. Qed.
Lemma sc_v : forall s, sc s = v32 s.
Proof. intro s. apply words32_v. Qed.
Lemma mask32_eq : forall b, mask32 b = mask b.
Proof. intros []; reflexivity. Qed.
Lemma xyz_iff : forall p Q, represents_xyz p Q <-> is3 p Q.
Proof.
  intros p Q. unfold represents_xyz, is3, tight_point, rep3. rewrite !carried_iff, !fe_F, iso4_phi. tauto.
Qed.
Lemma rep_iff : forall p Q, represents p Q <-> isP p Q.
Proof.
  intros p Q. unfold represents, isP, is3, tight_point, rep3. rewrite !carried_iff, !fe_F, iso4_phi. tauto.
Qed.
Lemma stands_iff : forall n z Q, stands n z Q <-> tight_niels n /\ repN (F (na n)) (F (nb n)) (F (nc n)) z Q.
Proof.
  intros n z Q. unfold stands, tight_niels, repN. rewrite !carried_iff, !fe_F, iso4_phi, twd_val. tauto.
Qed.
Lemma entry_iff : forall n Q, entry n Q <-> isN n Q.
Proof. intros n Q. apply stands_iff. Qed.
Lemma pentry_iff : forall m Q, projective_entry m Q <-> isPN m Q.
Proof. intros m Q. unfold projective_entry, isPN. rewrite stands_iff, carried_iff, fe_F. tauto. Qed.

(* field *)
Lemma fmul_comm : forall x y, fmul x y = fmul y x.
Proof. intros x y. ring. Qed.
Transparent fpow.
Lemma fpow_fzero : forall e, fpow fzero e = fzero.
Proof. induction e as [e IH|e IH|]; cbn [fpow]; rewrite ?IH; ring. Qed.
Opaque fpow.
Theorem field_ops : forall a b, summed a -> summed b ->
  (carried (mul a b) /\ fe (mul a b) = fmul (fe a) (fe b)) /\
  (carried (square a) /\ fe (square a) = fmul (fe a) (fe a)) /\
  (carried (add a b) /\ fe (add a b) = fadd (fe a) (fe b)) /\
  (carried b -> returns_fe (sub a b) (fsub (fe a) (fe b))) /\
  (forall k, 3 <= k <= 4 -> returns_fe (sub_x_bias a b k) (fsub (fe a) (fe b))) /\
  (carried a -> carried b -> summed (add_raw a b) /\ fe (add_raw a b) = fadd (fe a) (fe b)) /\
  (carried a -> returns_fe (neg a) (fopp (fe a))) /\
  (forall w, 0 <= w < 2 ^ 28 -> returns_fe (mul_w a w) (fmul (mkF w) (fe a))) /\
  (forall c, - 2 ^ 28 < c < 0 -> returns_fe (mul_with_signed_curve_constant a c) (fmul (mkF c) (fe a))).
Proof.
  intros a b Ha Hb. rewrite summed_iff in Ha, Hb. repeat apply conj; intros; rewrite ?returns_iff, ?carried_iff, ?summed_iff, ?fe_F in *.
  - apply mul_F; assumption.
  - apply mul_F; assumption.
  - apply square_F; assumption.
  - apply square_F; assumption.
  - apply add_F; assumption.
  - apply add_F; assumption.
  - apply sub_F; assumption.
  - apply sub_x_bias_F; assumption.
  - apply add_raw_F; assumption.
  - pose proof (conditional_negate_F a true H) as (r & E1 & E2 & E3). destruct (neg_ok a H) as (r' & N1 & N2 & N3). exists r'. split; [ exact N1 | ]. split; [ exact N2 | ].
    rewrite (F_cong _ _ N3). unfold F. rewrite mkF_opp. reflexivity.
  - apply mul_w_F; assumption.
  - apply mul_signed_F; assumption.
Qed.
Theorem field_select : forall a b x, limbs_upto (2 ^ 32 - 1) a -> limbs_upto (2 ^ 32 - 1) b ->
  conditional_swap a b (mask32 x) = (if x then (b, a) else (a, b)) /\
  constant_time_select a b (mask32 x) = (if x then a else b) /\
  decaf_const_time_select a b (mask32 x) = (if x then b else a) /\
  (carried a -> returns_fe (conditional_negate a (mask32 x)) (if x then fopp (fe a) else fe a)) /\
  (carried a -> returns_fe (decaf_cond_negate a (mask32 x)) (if x then fopp (fe a) else fe a)).
Proof.
  intros a b x Ha Hb. rewrite upto_iff in Ha, Hb. rewrite mask32_eq. repeat apply conj; intros; rewrite ?returns_iff, ?carried_iff, ?fe_F in *.
  - apply conditional_swap_ok; assumption.
  - apply constant_time_select_ok; assumption.
  - apply decaf_select_ok; assumption.
  - apply conditional_negate_F; assumption.
  - apply decaf_cond_negate_F; assumption.
Qed.
Theorem field_reduce : forall a, limbs_upto (2 ^ 32 - 16) a ->
  (carried (weak_reduce a) /\ fe (weak_reduce a) = fe a) /\
  (exists r, strong_reduce a = Some r /\ limbs_upto (2 ^ 28 - 1) r /\ words_val 28 (limbs r) = fval (fe a)) /\
  low_bit a = Some (mask32 (Z.odd (fval (fe a)))) /\
  dsa_like_serialize a = Some (le_bytes 56 (fval (fe a))).
Proof.
  intros a H. rewrite upto_iff in H. rewrite !fe_F, carried_iff, mask32_eq, fval_F. split; [ | split; [ | split ] ].
  - destruct (weak_reduce_ok a H) as (H1 & H2). split; [ apply (bn_le_mono (2 ^ 28 + 14)); [ vm_compute; discriminate | exact H1 ] | apply F_cong; exact H2 ].
  - destruct (strong_reduce_ok a H) as (r & E1 & E2 & E3). exists r. split; [ exact E1 | ]. split.
    + eapply Forall_impl; [ | exact E2 ]. unfold r28. cbv beta. intros z Hz. lia.
    + rewrite words28_v, <- ev_v28. exact E3.
  - apply low_bit_ok. exact H.
  - apply dsa_like_serialize_ok. exact H.
Qed.
Theorem field_invert : forall a, carried a -> returns_fe (invert a) (finv (fe a)) /\
  (fe a <> fzero -> fmul (fe a) (finv (fe a)) = fone) /\ (fe a = fzero -> finv (fe a) = fzero).
Proof.
  intros a H. rewrite carried_iff in H. rewrite returns_iff, fe_F. split; [ apply invert_F; exact H | ]. split.
  - intro N. rewrite fmul_comm. apply finv_l. exact N.
  - intro E. rewrite E, finv_def. apply fpow_fzero.
Qed.
Theorem field_isr : forall a, carried a -> exists r, isr a = Some r /\ carried r /\
  (fe a <> fzero -> (exists y, fmul y y = fe a) -> fmul (fmul (fe r) (fe r)) (fe a) = fone) /\
  ((forall y, fmul y y <> fe a) -> fmul (fmul (fe r) (fe r)) (fe a) = fopp fone) /\
  (fe a = fzero -> fe r = fzero).
Proof.
  intros a H. rewrite carried_iff in H. destruct (isr_pow a H) as (r & E1 & E2 & E3). exists r.
  rewrite carried_iff, !fe_F. split; [ exact E1 | ]. split; [ exact E2 | ]. rewrite E3. rewrite isr_square. split; [ | split ].
  - intros N (y & Y). apply square_euler; [ exact N | ]. exists y. exact Y.
  - intro N. assert (NZ : F a <> fzero).
    { intro Z. apply (N fzero). rewrite Z. ring. }
    destruct (euler_pm (F a) NZ) as [E|E]; [ | exact E ]. exfalso. apply euler_square in E. destruct E as (y & Y). apply (N y). exact Y.
  - intro Z. rewrite Z. apply fpow_fzero.
Qed.

(* scalars *)
Theorem scalar_ops : forall a b, reduced a -> reduced b ->
  returns_sc (sadd a b) (sc a + sc b) /\ returns_sc (ssub a b) (sc a - sc b) /\ returns_sc (smul a b) (sc a * sc b) /\
  (reduced (halve a) /\ (2 * sc (halve a)) mod q448 = sc a) /\ encode a = le_bytes 57 (sc a) /\ nth 56 (encode a) 0 = 0.
Proof.
  intros a b Ha Hb. rewrite reduced_iff in Ha, Hb. unfold returns_sc.
  assert (E : encode a = le_bytes 57 (sc a)) by (rewrite sc_v; apply encode_ok; apply Ha).
  rewrite !sc_v in *. split; [ | split; [ | split; [ | split; [ | split ] ] ] ].
  - destruct (sadd_ok a b Ha Hb) as (r & R). exists r. rewrite reduced_iff, sc_v. exact R.
  - destruct (ssub_ok a b Ha Hb) as (r & R). exists r. rewrite reduced_iff, sc_v. exact R.
  - destruct (smul_ok a b (proj1 Ha) Hb) as (r & R). exists r. rewrite reduced_iff, sc_v. exact R.
  - rewrite reduced_iff. destruct (halve_red a Ha) as (H1 & H2). split; [ exact H1 | ]. rewrite H2. apply red_mod. exact Ha.
  - exact E.
  - rewrite E. change 57%nat with (56 + 1)%nat. rewrite le_bytes_snoc, app_nth2 by (rewrite le_bytes_length; lia). rewrite le_bytes_length, Nat.sub_diag. cbn [nth].
    pose proof (wf_range a (proj1 Ha)). change (256 ^ Z.of_nat 56) with (2 ^ 448). rewrite Z.div_small by exact H. reflexivity.
Qed.
Theorem scalar_decode : forall b, bytes b -> Z.of_nat (length b) < 2 ^ 64 -> returns_sc (decode_long b) (le_val b).
Proof. intros b B L. destruct (decode_long_ok b B L) as (r & R). exists r. rewrite reduced_iff, sc_v. exact R. Qed.

(* points *)
Theorem fixed_base : forall s, reduced s -> exists r, precomputed_scalar_mul s = Some r /\ represents r (emul (sc s) ebase).
Proof.
  intros s H. rewrite reduced_iff in H. destruct (precomputed_scalar_mul_ok s comb_ok H) as (r & E & P).
  exists r. split; [ exact E | ]. rewrite rep_iff, sc_v. rewrite (base_cong (v32 s) (meff (v32 s)) (eq_sym (meff_cong _))). exact P.
Qed.
Theorem variable_base : forall p s Q, represents p Q -> reduced s -> exists r m, point_scalar_mul p s = Some r /\
  represents r (emul m Q) /\ m mod q448 = sc s /\ emul (4 * m) Q = emul (4 * sc s) Q /\
  (emul q448 Q = ezero -> emul m Q = emul (sc s) Q).
Proof.
  intros p s Q P H. rewrite rep_iff in P. rewrite reduced_iff in H. destruct (point_scalar_mul_ok p s Q P H) as (r & E & R).
  assert (M : meff (v32 s) mod q448 = v32 s) by (rewrite meff_cong; apply red_mod; exact H).
  pose proof (isP_on p Q P) as ON.
  exists r, (meff (v32 s)). rewrite rep_iff, sc_v. split; [ exact E | ]. split; [ exact R | ]. split; [ exact M | ]. split.
  - rewrite <- (mod_4q_mul (meff (v32 s)) Q ON), M. reflexivity.
  - intro Z. rewrite <- (emul_mod (meff (v32 s)) q448 Q ON Z q448_nz), M. reflexivity.
Qed.
Theorem double_base : forall p s t Q, represents p Q -> reduced s -> reduced t -> exists r,
  point_double_scalamul_non_secret p s t = Some r /\ represents r (eadd (emul (sc s) ebase) (emul (sc t) Q)).
Proof.
  intros p s t Q P Hs Ht. rewrite rep_iff in P. rewrite reduced_iff in Hs, Ht. pose proof q448_bounds as B.
  destruct (double_scalamul_ok p s t Q P (proj1 Hs)) as (r & E & R).
  - destruct Hs as (_ & K). lia.
  - exact (proj1 Ht).
  - destruct Ht as (_ & K). lia.
  - exists r. split; [ exact E | ]. rewrite rep_iff, !sc_v. rewrite eadd_comm. exact R.
Qed.
Theorem formulas : forall p Q, represents p Q ->
  (forall before, exists r, double_internal p before = Some r /\ represents_xyz r (eadd Q Q) /\ (before = false -> represents r (eadd Q Q))) /\
  (forall n R before, entry n R ->
     (exists r, add_niels_to_extended p n before = Some r /\ represents_xyz r (eadd Q R) /\ (before = false -> represents r (eadd Q R))) /\
     (exists r, sub_niels_from_extended_point p n before = Some r /\ represents_xyz r (eadd Q (eneg R)) /\ (before = false -> represents r (eadd Q (eneg R))))) /\
  (forall n R before, projective_entry n R ->
     (exists r, add_projected_niels_to_extended p n before = Some r /\ represents_xyz r (eadd Q R) /\ (before = false -> represents r (eadd Q R))) /\
     (exists r, sub_projected_niels_from_extended_point p n before = Some r /\ represents_xyz r (eadd Q (eneg R)) /\ (before = false -> represents r (eadd Q (eneg R))))) /\
  (exists m, to_projected_niels p = Some m /\ projective_entry m Q).
Proof.
  assert (K : forall o before Q', (exists r, o = Some r /\ isB before r Q') ->
    exists r : point, o = Some r /\ represents_xyz r Q' /\ (before = false -> represents r Q')).
  { intros o before Q' (r & E & B1 & B2). exists r. split; [ exact E | ]. split; [ apply xyz_iff; exact B1 | ]. intro b. apply rep_iff. apply B2. exact b. }
  intros p Q P. rewrite rep_iff in P. repeat apply conj.
  - intros bf. apply K. apply double_ok. apply P.
  - intros n R bf N. rewrite entry_iff in N. split; apply K; [ apply add_niels_ok | apply sub_niels_ok ]; assumption.
  - intros n R bf N. rewrite pentry_iff in N. split; apply K; [ apply add_pniels_ok | apply sub_pniels_ok ]; assumption.
  - destruct (to_pniels_ok p Q P) as (m & E & M). exists m. rewrite pentry_iff. split; assumption.
Qed.
(* doubling needs no T *)
Theorem doubling : forall p Q before, represents_xyz p Q -> exists r, double_internal p before = Some r /\
  represents_xyz r (eadd Q Q) /\ (before = false -> represents r (eadd Q Q)).
Proof.
  intros p Q before P. rewrite xyz_iff in P. destruct (double_ok p before Q P) as (r & E & B1 & B2). exists r.
  split; [ exact E | ]. split; [ apply xyz_iff; exact B1 | ]. intro b. apply rep_iff. apply B2. exact b.
Qed.
Theorem table_entries : 
  (forall n Q x, entry n Q -> exists r, niels_conditional_negate n (mask32 x) = Some r /\ entry r (if x then eneg Q else Q)) /\
  (forall n Q, entry n Q -> exists r, niels_to_extended n = Some r /\ represents r Q) /\
  (forall n Q, projective_entry n Q -> exists r, pniels_to_extended n = Some r /\ represents r Q) /\
  represents identity_point ezero.
Proof.
  split; [ | split; [ | split ] ].
  - intros n Q x N. rewrite entry_iff in N. rewrite mask32_eq. destruct (niels_negate_ok n x Q N) as (r & E & R). exists r. rewrite entry_iff. auto.
  - intros n Q N. rewrite entry_iff in N. destruct (niels_to_extended_ok n Q N) as (r & E & R). exists r. rewrite rep_iff. auto.
  - intros n Q N. rewrite pentry_iff in N. destruct (pniels_to_extended_ok n Q N) as (r & E & R). exists r. rewrite rep_iff. auto.
  - rewrite rep_iff. exact identity_ok.
Qed.
Theorem encoding : forall p Q, represents_xyz p Q -> eddsa_like_encode p = Some (eencode (emul 4 Q)).
Proof. intros p Q P. rewrite xyz_iff in P. apply encode_point_ok. exact P. Qed.

(* wNAF *)
Theorem recoding : forall control s tb, 3 <= tb <= 5 -> reduced s ->
  (Z.to_nat (446 / (tb + 1) + 3) <= length control)%nat ->
  exists ds rest r, recode_wnaf control s tb = Some (ds ++ Smvt (-1) 0 :: rest, r) /\
    expansion ds = sc s /\ decreasing (tb + 2) ds /\
    Forall (fun d => Z.odd (addend d) = true /\ - 2 ^ (tb + 1) < addend d < 2 ^ (tb + 1) /\ power d <= 446) ds /\
    match ds with [] => True | d :: _ => 0 < addend d end /\
    r = Z.of_nat (length ds) /\ (length ds < Z.to_nat (446 / (tb + 1) + 3))%nat /\
    length (ds ++ Smvt (-1) 0 :: rest) = length control /\
    skipn (Z.to_nat (446 / (tb + 1) + 3)) (ds ++ Smvt (-1) 0 :: rest) = skipn (Z.to_nat (446 / (tb + 1) + 3)) control.
Proof.
  intros control s tb T H L. rewrite reduced_iff in H. pose proof q448_bounds as B.
  destruct (recode_full control s tb T (proj1 H)) as (ds & rest & r & E & (D1 & D2 & D3 & D4) & D5); [ destruct H as (_ & K); lia | exact L | ].
  exists ds, rest, r. split; [ exact E | ]. rewrite sc_v. split; [ exact D3 | ]. split; [ exact D2 | ].
  assert (P : forall ds, spaced (tb + 2) ds -> match ds with [] => True | d :: _ => power d <= 446 end -> Forall (fun d => power d <= 446) ds).
  { clear - T. induction ds as [|d t IH]; intros S M; constructor; [ exact M | ]. cbn [spaced] in S. destruct S as (_ & S1 & S2). apply IH; [ exact S2 | ]. destruct t as [|d' t]; [ exact I | lia ]. }
  split; [ | split; [ | exact D5 ] ].
  - apply Forall_forall. intros d Hd. unfold digit_ok in D1. rewrite Forall_forall in D1. destruct (D1 d Hd) as (A1 & A2). split; [ exact A1 | ]. split; [ exact A2 | ].
    assert (P1 : Forall (fun d => power d <= 446) ds) by (apply P; [ exact D2 | destruct ds; [ exact I | apply D4 ] ]). rewrite Forall_forall in P1. apply P1. exact Hd.
  - destruct ds; [ exact I | apply D4 ].
Qed.
