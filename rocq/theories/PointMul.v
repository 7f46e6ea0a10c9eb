(* extended_point.rs: fixed-window multiplication (point_scalar_mul). *)
From Coq Require Import ZArith List Bool Lia.
From Verif Require Import SpecField SpecBytes SpecCurve SpecScalar Base Arith Bytes Constants32 BigNumber ScalarModel Niels CombTable ExtendedPoint.
From Verif Require Import LimbKara LimbOps LimbOps2 LimbSer Field FieldOps Edwards Isogeny PointOps ScalarProofs.
Import ListNotations.
Open Scope Z_scope.

(* bits of a scalar *)
Lemma v32_testbit : forall s n w, Forall r32 s -> 0 <= n -> n / 32 < Z.of_nat (length s) ->
  znth s (n / 32) = Some w -> Z.testbit w (n mod 32) = Z.testbit (v32 s) n.
Proof.
  induction s as [|x s IH]; intros n w H Hn Hl E; [ cbn [length] in Hl; pose proof (Z.div_pos n 32); lia | ].
  inversion H as [|? ? Hx Hs]; subst. cbn [v32].
  rewrite (znth_spec _ _ _ 0) in E by (split; [ apply Z.div_pos; lia | exact Hl ]).
  destruct (Z_lt_ge_dec n 32) as [L|L].
  - rewrite Z.div_small in E by lia. cbn [nth Z.to_nat] in E. injection E as E. subst w. rewrite Z.mod_small by lia.
    rewrite <- (Z.mod_pow2_bits_low (x + 2 ^ 32 * v32 s) 32 n) by lia.
    replace (x + 2 ^ 32 * v32 s) with (x + v32 s * 2 ^ 32) by ring.
    rewrite Z.mod_add by lia. rewrite Z.mod_small by exact Hx. reflexivity.
  - assert (D : n / 32 = (n - 32) / 32 + 1) by (rewrite <- (Z.div_add (n - 32) 1 32) by lia; f_equal; lia).
    assert (D0 : 0 <= (n - 32) / 32) by (apply Z.div_pos; lia).
    rewrite D in E. replace (Z.to_nat ((n - 32) / 32 + 1)) with (S (Z.to_nat ((n - 32) / 32))) in E by lia.
    cbn [nth] in E.
    replace (n mod 32) with ((n - 32) mod 32) by (replace n with (n - 32 + 1 * 32) at 2 by ring; rewrite Z.mod_add by lia; reflexivity).
    rewrite (IH (n - 32) w Hs); [ | lia | cbn [length] in Hl; lia | ].
    2: { rewrite (znth_spec _ _ _ 0) by (cbn [length] in Hl; lia). exact E. }
    replace (x + 2 ^ 32 * v32 s) with (x + v32 s * 2 ^ 32) by ring.
    rewrite <- (Z.sub_add 32 n) at 2. rewrite <- Z.div_pow2_bits by lia.
    rewrite Z.div_add by lia. rewrite (Z.div_small x) by exact Hx. reflexivity.
Qed.
Lemma wf_word : forall s k, wf s -> 0 <= k < 14 -> exists w, znth s k = Some w /\ r32 w.
Proof.
  intros s k (H1 & H2) Hk. exists (nth (Z.to_nat k) s 0).
  split; [ apply znth_spec; lia | ]. rewrite Forall_forall in H2. apply H2, nth_In. lia.
Qed.
Lemma bit_above : forall w n, r32 w -> 32 <= n -> Z.testbit w n = false.
Proof.
  intros w n H Hn. rewrite <- (Z.mod_small w (2 ^ 32)) by exact H. apply Z.mod_pow2_bits_high. lia.
Qed.

(* the 5 bits at position i *)
Definition win (h i : Z) : Z := (h / 2 ^ i) mod 32.
Lemma win_bits : forall h i j, 0 <= i -> 0 <= j -> Z.testbit (win h i) j = (j <? 5) && Z.testbit h (i + j).
Proof.
  intros h i j Hi Hj. unfold win. change 32 with (2 ^ 5). destruct (Z.ltb_spec j 5).
  - rewrite Z.mod_pow2_bits_low, Z.div_pow2_bits by lia. cbn [andb]. f_equal. lia.
  - rewrite Z.mod_pow2_bits_high by lia. reflexivity.
Qed.
Lemma window_digit_ok : forall s i, wf s -> 0 <= i < 448 ->
  window_digit s i = Some (Z.lxor (win (v32 s) i) (wsub32 (Z.shiftr (win (v32 s) i) 4) 1), wsub32 (Z.shiftr (win (v32 s) i) 4) 1).
Proof.
  intros s i Hs Hi. unfold window_digit, WORD_BITS.
  change (SCALAR_WORDS - 1) with 13. change (32 - 5) with 27.
  assert (Hk : 0 <= i / 32 < 14) by (split; [ apply Z.div_pos; lia | apply Z.div_lt_upper_bound; lia ]).
  pose proof (Z.mod_pos_bound i 32 ltac:(lia)) as Hr. pose proof (Z.div_mod i 32 ltac:(lia)) as Hd.
  set (k := i / 32) in *. set (r := i mod 32) in *.
  destruct (wf_word s k Hs Hk) as (w & Ew & Hw). rewrite Ew, bind_Some. cbv beta zeta.
  assert (B : forall j, 0 <= j -> r + j < 32 -> Z.testbit w (r + j) = Z.testbit (v32 s) (i + j)).
  { intros j Hj Hl. pose proof (v32_testbit s (i + j) w) as T.
    assert (Q1 : (i + j) / 32 = k) by (symmetry; apply (Z.div_unique _ 32 k (r + j)); lia).
    assert (Q2 : (i + j) mod 32 = r + j) by (symmetry; apply (Z.mod_unique _ 32 k (r + j)); lia).
    rewrite Q1, Q2 in T. apply T; [ exact (proj2 Hs) | lia | rewrite (proj1 Hs); lia | exact Ew ]. }
  assert (HI : forall z, v32 s < 2 ^ 448 -> 448 <= z -> Z.testbit (v32 s) z = false).
  { intros z HH Hz. pose proof (wf_range s Hs). rewrite <- (Z.mod_small (v32 s) (2 ^ 448)) by lia. apply Z.mod_pow2_bits_high. lia. }
  pose proof (proj2 (wf_range s Hs)) as HV.
  assert (E31 : 31 = Z.ones 5) by reflexivity.
  assert (G : forall b, (forall j, 0 <= j < 5 -> Z.testbit b j = Z.testbit (v32 s) (i + j)) -> Z.land b 31 = win (v32 s) i).
  { intros b Hb. apply Z.bits_inj'. intros j Hj. rewrite E31, Z.land_spec, win_bits by lia.
    destruct (Z.ltb_spec j 5).
    - rewrite Hb, Z.ones_spec_low by lia. rewrite andb_true_r. reflexivity.
    - rewrite Z.ones_spec_high by lia. rewrite andb_false_r. reflexivity. }
  destruct ((r >=? 27) && (k <? 13)) eqn:C.
  - apply andb_prop in C. destruct C as (C1 & C2). apply Z.geb_le in C1. apply Z.ltb_lt in C2.
    destruct (wf_word s (k + 1) Hs ltac:(lia)) as (w' & Ew' & Hw'). rewrite Ew', !bind_Some. cbv beta.
    rewrite G; [ reflexivity | ]. intros j Hj. rewrite Z.lxor_spec, Z.shiftr_spec by lia.
    unfold shl32, wrap32. change 0xffffffff with (Z.ones 32). rewrite Z.land_spec, Z.ones_spec_low, andb_true_r by lia.
    rewrite Z.shiftl_spec by lia. replace (j + r) with (r + j) by ring.
    destruct (Z_lt_ge_dec (r + j) 32).
    + rewrite B by lia. rewrite (Z.testbit_neg_r w') by lia. apply xorb_false_r.
    + rewrite (bit_above w) by (assumption || lia). rewrite xorb_false_l.
      pose proof (v32_testbit s (i + j) w') as T.
      assert (Q1 : (i + j) / 32 = k + 1) by (symmetry; apply (Z.div_unique _ 32 (k + 1) (j - (32 - r))); lia).
      assert (Q2 : (i + j) mod 32 = j - (32 - r)) by (symmetry; apply (Z.mod_unique _ 32 (k + 1)); lia).
      rewrite Q1, Q2 in T. apply T; [ exact (proj2 Hs) | lia | rewrite (proj1 Hs); lia | exact Ew' ].
  - rewrite bind_Some. cbv beta. rewrite G; [ reflexivity | ].
    intros j Hj. rewrite Z.shiftr_spec by lia. replace (j + r) with (r + j) by ring.
    destruct (Z_lt_ge_dec (r + j) 32); [ apply B; lia | ].
    rewrite (bit_above w) by (assumption || lia). symmetry. apply HI; [ exact HV | ].
    apply andb_false_iff in C. destruct C as [C|C]; [ apply Bool.not_true_iff_false in C; rewrite Z.geb_le in C; lia | ].
    apply Z.ltb_ge in C. lia.
Qed.
Lemma digit_split : forall b, 0 <= b < 32 ->
  wsub32 (Z.shiftr b 4) 1 = mask (b <? 16) /\
  Z.land (Z.lxor b (wsub32 (Z.shiftr b 4) 1)) 15 = (if b <? 16 then 15 - b else b - 16).
Proof.
  intros b Hb. assert (H : In b (map Z.of_nat (seq 0 32))).
  { apply in_map_iff. exists (Z.to_nat b). split; [ lia | apply in_seq; lia ]. }
  cbn [map seq] in H. repeat (destruct H as [<-|H]; [ split; reflexivity | ]). destruct H.
Qed.

(* odd multiples *)
Definition odd_table (l : list pniels) (n : nat) (Q : ept) : Prop :=
  length l = n /\ forall i d, (i < n)%nat -> isPN (nth i l d) (emul (2 * Z.of_nat i + 1) Q).
Lemma window_loop_ok : forall n p step k Q, on_curve Q -> isP p (emul k Q) -> isPN step (emul 2 Q) ->
  exists l, window_loop n p step = Some l /\ length l = n /\
    forall i d, (i < n)%nat -> isPN (nth i l d) (emul (k + 2 * (Z.of_nat i + 1)) Q).
Proof.
  induction n as [|n IH]; intros p step k Q HQ Hp Hs; cbn [window_loop].
  - exists []. split; [ reflexivity | ]. split; [ reflexivity | ]. intros; lia.
  - destruct (add_pniels_ok p step false _ _ Hp Hs) as (p' & E & H). rewrite E, bind_Some. cbv beta.
    apply isB_false in H. rewrite <- emul_add in H by exact HQ.
    destruct (to_pniels_ok p' _ H) as (e & Ee & He). rewrite Ee, bind_Some. cbv beta.
    destruct (IH p' step (k + 2) Q HQ H Hs) as (l & El & Ll & Hl). rewrite El, bind_Some. cbv beta.
    eexists. split; [ reflexivity | ]. split; [ cbn [length]; lia | ].
    intros [|i] d Hi; cbn [nth]; [ exact He | ].
    replace (k + 2 * (Z.of_nat (S i) + 1)) with (k + 2 + 2 * (Z.of_nat i + 1)) by lia. apply Hl. lia.
Qed.
Lemma isP_on : forall p Q, isP p Q -> on_curve Q.
Proof. intros p Q ((_ & H & _) & _). exact H. Qed.
Lemma prepare_ok : forall p Q, isP p Q -> exists l, prepare_fixed_window p = Some l /\ odd_table l 16 Q.
Proof.
  intros p Q Hp. pose proof (isP_on _ _ Hp) as HQ. unfold prepare_fixed_window.
  destruct (double_ok p false Q (proj1 Hp)) as (p2 & E2 & H2). rewrite E2, bind_Some. cbv beta.
  apply isB_false in H2. rewrite <- emul_2 in H2 by exact HQ.
  destruct (to_pniels_ok p2 _ H2) as (st & Es & Hs). rewrite Es, bind_Some. cbv beta.
  destruct (to_pniels_ok p _ Hp) as (e & Ee & He). rewrite Ee, bind_Some. cbv beta.
  rewrite <- (emul_1 Q) in Hp.
  destruct (window_loop_ok 15 p st 1 Q HQ Hp Hs) as (l & El & Ll & Hl). rewrite El, bind_Some. cbv beta.
  eexists. split; [ reflexivity | ]. split; [ cbn [length]; lia | ].
  intros [|i] d Hi; cbn [nth].
  - change (2 * Z.of_nat 0 + 1) with 1. rewrite emul_1. exact He.
  - replace (2 * Z.of_nat (S i) + 1) with (1 + 2 * (Z.of_nat i + 1)) by lia. apply Hl. lia.
Qed.

Lemma double5_ok : forall p Q, isP p Q -> exists r, double5 p = Some r /\ isP r (emul 32 Q).
Proof.
  intros p Q Hp. pose proof (isP_on _ _ Hp) as HQ. unfold double5.
  destruct (double_ok p true _ (proj1 Hp)) as (p1 & E1 & H1). rewrite E1, bind_Some. cbv beta.
  destruct (double_ok p1 true _ (proj1 H1)) as (p2 & E2 & H2). rewrite E2, bind_Some. cbv beta.
  destruct (double_ok p2 true _ (proj1 H2)) as (p3 & E3 & H3). rewrite E3, bind_Some. cbv beta.
  destruct (double_ok p3 true _ (proj1 H3)) as (p4 & E4 & H4). rewrite E4, bind_Some. cbv beta.
  destruct (double_ok p4 false _ (proj1 H4)) as (p5 & E5 & H5). exists p5. split; [ exact E5 | ].
  apply isB_false in H5. rewrite <- (emul_2 Q) in H5 by exact HQ.
  rewrite <- !emul_add in H5 by exact HQ. exact H5.
Qed.

(* the multiplier the loop computes from n windows *)
Definition wval (h n : Z) : Z := 2 * (h mod 2 ^ (5 * n)) - (2 ^ (5 * n) - 1).
Lemma wval_S : forall h n, 0 <= n -> wval h (n + 1) = (2 * win h (5 * n) - 31) * 2 ^ (5 * n) + wval h n.
Proof.
  intros h n Hn. unfold wval, win. replace (5 * (n + 1)) with (5 * n + 5) by ring. rewrite Z.pow_add_r by lia.
  rewrite Z.rem_mul_r by (try apply Z.pow_nonzero; lia). change (2 ^ 5) with 32. ring.
Qed.
Lemma sel_digit : forall mult Q b, odd_table mult 16 Q -> 0 <= b < 32 -> on_curve Q ->
  exists m n, znth mult (Z.land (Z.lxor b (wsub32 (Z.shiftr b 4) 1)) 15) = Some m /\
    niels_conditional_negate (pn m) (wsub32 (Z.shiftr b 4) 1) = Some n /\
    isPN (PNiels n (pnz m)) (emul (2 * b - 31) Q).
Proof.
  intros mult Q b (L & T) Hb HQ. destruct (digit_split b Hb) as (E1 & E2). rewrite E2, E1.
  assert (E3 : (if b <? 16 then 15 - b else b - 16) = Z.of_nat (Z.to_nat (if b <? 16 then 15 - b else b - 16)))
    by (destruct (Z.ltb_spec b 16); lia).
  rewrite E3. set (i := Z.to_nat (if b <? 16 then 15 - b else b - 16)) in *.
  assert (Hi : (i < 16)%nat) by (destruct (Z.ltb_spec b 16); lia).
  destruct mult as [|m0 mt]; [ discriminate L | ].
  rewrite (znth_spec _ _ _ m0) by lia. rewrite Nat2Z.id.
  specialize (T i m0 Hi). destruct (pniels_negate_ok _ (b <? 16) _ T) as (n & En & Hn).
  exists (nth i (m0 :: mt) m0), n. split; [ reflexivity | ]. split; [ exact En | ].
  destruct (Z.ltb_spec b 16).
  - rewrite <- emul_opp in Hn. replace (2 * b - 31) with (- (2 * Z.of_nat i + 1)) by lia. exact Hn.
  - replace (2 * b - 31) with (2 * Z.of_nat i + 1) by lia. exact Hn.
Qed.
Lemma win_range : forall h i, 0 <= win h i < 32.
Proof. intros. apply Z.mod_pos_bound. lia. Qed.
Lemma scalar_mul_loop_ok : forall n fuel s mult Q o c, wf s -> odd_table mult 16 Q -> on_curve Q ->
  (n <= 89)%nat -> (n <= fuel)%nat -> isP o (emul c Q) ->
  exists r, scalar_mul_loop fuel s mult (5 * Z.of_nat n - 5) (Some o) = Some (Some r) /\
    isP r (emul (2 ^ (5 * Z.of_nat n) * c + wval (v32 s) (Z.of_nat n)) Q).
Proof.
  induction n as [|n IH]; intros fuel s mult Q o c Hs HT HQ Hn Hf Ho.
  - exists o. split; [ destruct fuel; reflexivity | ].
    change (wval (v32 s) (Z.of_nat 0)) with (2 * (v32 s mod 1) - 0). rewrite Z.mod_1_r.
    change (2 ^ (5 * Z.of_nat 0)) with 1. replace (1 * c + (2 * 0 - 0)) with c by ring. exact Ho.
  - destruct fuel as [|fuel]; [ lia | ]. cbn [scalar_mul_loop].
    destruct (Z.geb_spec (5 * Z.of_nat (S n) - 5) 0); [ | lia ].
    replace (5 * Z.of_nat (S n) - 5) with (5 * Z.of_nat n) by lia.
    rewrite window_digit_ok by (assumption || lia). rewrite bind_Some. cbv beta iota.
    destruct (sel_digit mult Q (win (v32 s) (5 * Z.of_nat n)) HT (win_range _ _) HQ) as (m & n' & E1 & E2 & E3).
    rewrite E1, bind_Some. cbv beta. rewrite E2, bind_Some. cbv beta zeta.
    destruct (double5_ok o _ Ho) as (o5 & E5 & H5). rewrite E5, bind_Some. cbv beta.
    rewrite <- emul_mul in H5 by exact HQ.
    destruct (add_pniels_ok o5 _ false _ _ H5 E3) as (o' & E6 & H6). rewrite E6, bind_Some. cbv beta.
    apply isB_false in H6. rewrite <- emul_add in H6 by exact HQ.
    destruct (IH fuel s mult Q o' _ Hs HT HQ ltac:(lia) ltac:(lia) H6) as (r & Er & Hr).
    exists r. split; [ exact Er | ].
    replace (2 ^ (5 * Z.of_nat (S n)) * c + wval (v32 s) (Z.of_nat (S n))) with
      (2 ^ (5 * Z.of_nat n) * (32 * c + (2 * win (v32 s) (5 * Z.of_nat n) - 31)) + wval (v32 s) (Z.of_nat n)); [ exact Hr | ].
    rewrite Nat2Z.inj_succ. unfold Z.succ. rewrite wval_S by lia.
    replace (5 * (Z.of_nat n + 1)) with (5 * Z.of_nat n + 5) by ring. rewrite Z.pow_add_r by lia. ring.
Qed.

(* the multiplier actually used: odd, congruent to s modulo q *)
Definition meff (s : Z) : Z := 2 * ((s + (2 ^ 450 - 1)) * ((q448 + 1) / 2) mod q448) - (2 ^ 450 - 1).
Lemma meff_cong : forall s, meff s mod q448 = s mod q448.
Proof.
  intro s. unfold meff. rewrite Zminus_mod, Zmult_mod_idemp_r, <- Zminus_mod.
  assert (E : 2 * ((s + (2 ^ 450 - 1)) * ((q448 + 1) / 2)) = (s + (2 ^ 450 - 1)) + (s + (2 ^ 450 - 1)) * q448).
  { replace ((s + (2 ^ 450 - 1)) + (s + (2 ^ 450 - 1)) * q448) with ((s + (2 ^ 450 - 1)) * (2 * ((q448 + 1) / 2))); [ ring | ].
    change (2 * ((q448 + 1) / 2)) with (q448 + 1). ring. }
  rewrite E. replace (s + (2 ^ 450 - 1) + (s + (2 ^ 450 - 1)) * q448 - (2 ^ 450 - 1)) with (s + (s + (2 ^ 450 - 1)) * q448) by ring.
  apply Z.mod_add. unfold q448. lia.
Qed.
Lemma adj_red : red scalar_adjustment.
Proof. split; [ split; [ reflexivity | ] | vm_compute; reflexivity ]. repeat constructor; unfold r32; vm_compute; intuition congruence. Qed.
Lemma adj_val : v32 scalar_adjustment = (2 ^ 450 - 1) mod q448.
Proof. vm_compute. reflexivity. Qed.
(* the first steps of both multiplications *)
Lemma adjust_ok : forall s, red s -> exists t, sadd s scalar_adjustment = Some t /\ red (halve t) /\
  2 * v32 (halve t) - (2 ^ 450 - 1) = meff (v32 s).
Proof.
  intros s Hs. destruct (sadd_ok s scalar_adjustment Hs adj_red) as (t & E & R & V).
  exists t. split; [ exact E | ]. destruct (halve_red t R) as (R2 & V2). split; [ exact R2 | ].
  unfold meff. f_equal. f_equal. rewrite V, adj_val, Zplus_mod_idemp_r in V2.
  rewrite Z.mod_mod in V2 by (unfold q448; lia).
  rewrite <- Z.mul_mod_idemp_l by (unfold q448; lia). rewrite <- V2.
  rewrite Z.mul_mod_idemp_l by (unfold q448; lia).
  replace (2 * v32 (halve t) * ((q448 + 1) / 2)) with (v32 (halve t) * (2 * ((q448 + 1) / 2))) by ring.
  change (2 * ((q448 + 1) / 2)) with (q448 + 1).
  replace (v32 (halve t) * (q448 + 1)) with (v32 (halve t) + v32 (halve t) * q448) by ring.
  rewrite Z.mod_add by (unfold q448; lia). symmetry. apply red_mod. exact R2.
Qed.
Lemma point_scalar_mul_ok : forall p s Q, isP p Q -> red s ->
  exists r, point_scalar_mul p s = Some r /\ isP r (emul (meff (v32 s)) Q).
Proof.
  intros p s Q Hp Hs. pose proof (isP_on _ _ Hp) as HQ. unfold point_scalar_mul.
  destruct (adjust_ok s Hs) as (t & Et & Rt & Vt). rewrite Et, bind_Some. cbv beta zeta.
  destruct (prepare_ok p Q Hp) as (l & El & Hl). rewrite El, bind_Some. cbv beta.
  change (SCALAR_BITS - (SCALAR_BITS - 1) mod 5 - 1) with 445.
  set (h := halve t) in *. pose proof (wf_range h (proj1 Rt)) as Hh.
  assert (E0 : forall f, scalar_mul_loop (S f) h l 445 None =
    ('(bits, inv) <- window_digit h 445 ;; m <- znth l (Z.land bits 15) ;;
     n <- niels_conditional_negate (pn m) inv ;;
     out' <- pniels_to_extended (PNiels n (pnz m)) ;; scalar_mul_loop f h l (445 - 5) (Some out'))) by reflexivity.
  change 100%nat with (S 99). rewrite E0. clear E0.
  rewrite window_digit_ok by (exact (proj1 Rt) || lia). rewrite bind_Some. cbv beta iota.
  destruct (sel_digit l Q (win (v32 h) 445) Hl (win_range _ _) HQ) as (m & n' & E1 & E2 & E3).
  rewrite E1, bind_Some. cbv beta. rewrite E2, bind_Some. cbv beta.
  destruct (pniels_to_extended_ok _ _ E3) as (o & E4 & H4). rewrite E4, bind_Some. cbv beta.
  change (445 - 5) with (5 * Z.of_nat 89 - 5).
  destruct (scalar_mul_loop_ok 89 99 h l Q o _ (proj1 Rt) Hl HQ ltac:(lia) ltac:(lia) H4) as (r & Er & Hr).
  rewrite Er, bind_Some. cbv beta iota. exists r. split; [ reflexivity | ].
  replace (meff (v32 s)) with (2 ^ (5 * Z.of_nat 89) * (2 * win (v32 h) 445 - 31) + wval (v32 h) (Z.of_nat 89)); [ exact Hr | ].
  rewrite <- Vt. change 445 with (5 * Z.of_nat 89).
  rewrite (Z.mul_comm (2 ^ (5 * Z.of_nat 89))), <- wval_S by lia.
  unfold wval. change (5 * (Z.of_nat 89 + 1)) with 450. rewrite (Z.mod_small (v32 h)); [ reflexivity | ].
  split; [ lia | ]. apply (Z.lt_trans _ (2 ^ 448)); [ lia | reflexivity ].
Qed.
