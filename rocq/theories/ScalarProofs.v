(* scalar.rs: value and range of every function. *)
From Coq Require Import ZArith List Bool Lia.
From Verif Require Import SpecScalar SpecBytes Base Arith Bytes Constants32 ScalarModel LimbSer.
Import ListNotations.
Open Scope Z_scope.

Definition r32 (x : Z) : Prop := 0 <= x < 2 ^ 32.
Fixpoint v32 (l : list Z) : Z :=
  match l with
  | [] => 0
  | x :: t => x + 2 ^ 32 * v32 t
  end.
(* a well-formed scalar: 14 words *)
Definition wf (s : scalar) : Prop := length s = 14%nat /\ Forall r32 s.
(* a reduced one *)
Definition red (s : scalar) : Prop := wf s /\ v32 s < q448.

Lemma pow32_S : forall n, 2 ^ (32 * Z.of_nat (S n)) = 2 ^ 32 * 2 ^ (32 * Z.of_nat n).
Proof. intro n. rewrite <- Z.pow_add_r by lia. f_equal. lia. Qed.
Lemma pow32_pos : forall n, 0 < 2 ^ (32 * Z.of_nat n).
Proof. intro n. apply Z.pow_pos_nonneg; lia. Qed.
Lemma v32_range : forall l, Forall r32 l -> 0 <= v32 l < 2 ^ (32 * Z.of_nat (length l)).
Proof.
  induction 1 as [|x l Hx Hl IH]; [ simpl; lia | ].
  cbn [length v32]. rewrite pow32_S. unfold r32 in Hx. lia.
Qed.
Lemma wf_range : forall s, wf s -> 0 <= v32 s < 2 ^ 448.
Proof. intros s (H1 & H2). pose proof (v32_range s H2) as H. rewrite H1 in H. exact H. Qed.
Lemma v32_inj : forall a b, length a = length b -> Forall r32 a -> Forall r32 b -> v32 a = v32 b -> a = b.
Proof.
  induction a as [|x a IH]; intros [|y b] Hl Ha Hb Hv; try discriminate; [ reflexivity | ].
  inversion Ha; inversion Hb; subst. unfold r32 in *. cbn [v32] in Hv.
  assert (x = y /\ v32 a = v32 b) as (-> & E) by lia.
  f_equal. apply IH; auto.
Qed.
Lemma wf_inj : forall a b, wf a -> wf b -> v32 a = v32 b -> a = b.
Proof. intros a b (A1 & A2) (B1 & B2) H. apply v32_inj; congruence. Qed.

Lemma q_wf : wf SCALAR_Q.
Proof. split; [ reflexivity | ]. repeat constructor; discriminate. Qed.
Lemma v32_q : v32 SCALAR_Q = q448.
Proof. reflexivity. Qed.
Lemma q448_bounds : 2 ^ 445 < q448 < 2 ^ 446.
Proof. split; reflexivity. Qed.
Lemma wf_zero : wf SCALAR_ZERO.
Proof. split; [ reflexivity | ]. repeat constructor; discriminate. Qed.
Lemma v32_zero : v32 SCALAR_ZERO = 0.
Proof. reflexivity. Qed.
Lemma wf_one : wf SCALAR_ONE.
Proof. split; [ reflexivity | ]. repeat constructor; discriminate. Qed.
Lemma v32_one : v32 SCALAR_ONE = 1.
Proof. reflexivity. Qed.
Lemma wf_r2 : wf SCALAR_R2.
Proof. split; [ reflexivity | ]. repeat constructor; discriminate. Qed.
Lemma v32_r2 : v32 SCALAR_R2 = 2 ^ 896 mod q448.
Proof. vm_compute. reflexivity. Qed.

(* sub_extra *)
Lemma sub_loop_ok : forall m s c, length m = length s -> Forall r32 m -> Forall r32 s -> -1 <= c <= 0 ->
  exists r c', sub_loop c m s = Some (r, c') /\ length r = length m /\ Forall r32 r /\ -1 <= c' <= 0 /\
    v32 r + 2 ^ (32 * Z.of_nat (length m)) * c' = c + v32 m - v32 s.
Proof.
  induction m as [|x m IH]; intros [|y s] c Hl Hm Hs Hc; try discriminate.
  - exists [], c. cbn [sub_loop v32 length]. change (2 ^ (32 * Z.of_nat 0)) with 1. repeat split; auto; lia.
  - inversion Hm as [|? ? Hx Hm']; inversion Hs as [|? ? Hy Hs']; subst. unfold r32 in Hx, Hy.
    cbn [sub_loop]. rewrite !chk_i64_ok by lia. cbn [bind].
    rewrite chk_i64_ok by lia. cbn [bind]. unfold WORD_BITS. rewrite shr32, wrap32_mod.
    destruct (IH s ((c + (x - y)) / 2 ^ 32)) as (r & c' & H1 & H2 & H3 & H4 & H5); auto.
    { split; [ apply Z.div_le_lower_bound; lia | ].
      assert ((c + (x - y)) / 2 ^ 32 < 1) by (apply Z.div_lt_upper_bound; lia). lia. }
    rewrite H1. cbn [bind]. eexists _, c'. split; [ reflexivity | ].
    split; [ cbn [length]; congruence | ]. split.
    { constructor; [ apply Z.mod_pos_bound; lia | exact H3 ]. }
    split; [ exact H4 | ].
    cbn [length v32]. rewrite pow32_S.
    pose proof (Z.div_mod (c + (x - y)) (2 ^ 32) ltac:(lia)).
    generalize dependent (2 ^ (32 * Z.of_nat (length m))). intros P HP.
    rewrite <- Z.mul_assoc. lia.
Qed.
Lemma addback_ok : forall r qs c b, length r = length qs -> Forall r32 r -> Forall r32 qs -> 0 <= c <= 1 ->
  b = 0 \/ b = -1 ->
  exists t k, addback_loop c b r qs = Some t /\ length t = length r /\ Forall r32 t /\
    v32 t + 2 ^ (32 * Z.of_nat (length r)) * k = c + v32 r + (- b) * v32 qs.
Proof.
  induction r as [|x r IH]; intros [|y s] c b Hl Hm Hs Hc Hb; try discriminate.
  - exists [], c. cbn [addback_loop v32 length]. change (2 ^ (32 * Z.of_nat 0)) with 1. repeat split; auto; lia.
  - inversion Hm as [|? ? Hx Hm']; inversion Hs as [|? ? Hy Hs']; subst. unfold r32 in Hx, Hy.
    assert (E : Z.land y b = - b * y).
    { destruct Hb as [->| ->]; [ rewrite Z.land_0_r | rewrite Z.land_m1_r ]; lia. }
    assert (Eb : 0 <= - b * y < 2 ^ 32) by (destruct Hb as [->| ->]; lia).
    cbn [addback_loop]. rewrite E. rewrite !chk_i64_ok by lia. cbn [bind].
    rewrite chk_i64_ok by lia. cbn [bind]. unfold WORD_BITS. rewrite shr32, wrap32_mod.
    destruct (IH s ((c + (x + - b * y)) / 2 ^ 32) b) as (t & k & H1 & H2 & H3 & H4); auto.
    { split; [ apply Z.div_pos; lia | ].
      assert ((c + (x + - b * y)) / 2 ^ 32 < 2) by (apply Z.div_lt_upper_bound; lia). lia. }
    rewrite H1. cbn [bind]. eexists _, k. split; [ reflexivity | ].
    split; [ cbn [length]; congruence | ]. split.
    { constructor; [ apply Z.mod_pos_bound; lia | exact H3 ]. }
    cbn [length v32]. rewrite pow32_S.
    pose proof (Z.div_mod (c + (x + - b * y)) (2 ^ 32) ltac:(lia)).
    generalize dependent (2 ^ (32 * Z.of_nat (length r))). intros P HP.
    rewrite <- Z.mul_assoc. rewrite Z.mul_add_distr_l. lia.
Qed.
Lemma sub_extra_ok : forall m s carry, wf m -> wf s -> 0 <= carry <= 1 ->
  - q448 <= 2 ^ 448 * carry + v32 m - v32 s < q448 ->
  exists r, sub_extra m s carry = Some r /\ red r /\
    v32 r = (2 ^ 448 * carry + v32 m - v32 s) mod q448.
Proof.
  intros m s carry (M1 & M2) (S1 & S2) Hc HX. unfold sub_extra.
  destruct (sub_loop_ok m s 0) as (r & c & H1 & H2 & H3 & H4 & H5); auto; [ congruence | lia | ].
  rewrite H1. cbn [bind]. rewrite M1 in H2, H5. change (32 * Z.of_nat 14) with 448 in H5.
  pose proof (v32_range r H3) as R. rewrite H2 in R. change (32 * Z.of_nat 14) with 448 in R.
  rewrite chk_i64_ok by lia. cbn [bind].
  pose proof q448_bounds as QB.
  assert (QR : q448 < 2 ^ 448) by reflexivity.
  assert (Q0 : 0 < q448) by reflexivity.
  set (X := 2 ^ 448 * carry + v32 m - v32 s) in *.
  assert (EX : X = v32 r + 2 ^ 448 * (c + carry)) by (unfold X; lia).
  assert (HB : c + carry = 0 \/ c + carry = -1).
  { clear - R QR Q0 HX EX. generalize dependent (2 ^ 448). intros P. intros. nia. }
  destruct q_wf as (Q1 & Q2).
  destruct (addback_ok r SCALAR_Q 0 (c + carry)) as (t & k & K1 & K2 & K3 & K4);
    [ congruence | exact H3 | exact Q2 | lia | exact HB | ].
  rewrite v32_q in K4. rewrite H2 in K2, K4. change (32 * Z.of_nat 14) with 448 in K4.
  pose proof (v32_range t K3) as T. rewrite K2 in T. change (32 * Z.of_nat 14) with 448 in T.
  exists t. split; [ exact K1 | ].
  assert (V : v32 t = X mod q448).
  { destruct HB as [E|E]; rewrite E in *.
    - assert (k = 0) by (clear - T R K4 QR Q0; generalize dependent (2 ^ 448); intros P; intros; nia).
      subst k. rewrite Z.mod_small by lia. lia.
    - apply Zmod_unique with (-1).
      + assert (k = 1) by (clear - T R K4 QR Q0 HX EX; generalize dependent (2 ^ 448); intros P; intros; nia).
        subst k. lia.
      + assert (k = 1) by (clear - T R K4 QR Q0 HX EX; generalize dependent (2 ^ 448); intros P; intros; nia).
        subst k. lia. }
  split; [ | exact V ]. split; [ split; [ exact K2 | exact K3 ] | ].
  rewrite V. apply Z.mod_pos_bound. reflexivity.
Qed.

Lemma add_loop_ok : forall m s c, length m = length s -> Forall r32 m -> Forall r32 s -> 0 <= c <= 1 ->
  exists r c', add_loop c m s = Some (r, c') /\ length r = length m /\ Forall r32 r /\ 0 <= c' <= 1 /\
    v32 r + 2 ^ (32 * Z.of_nat (length m)) * c' = c + v32 m + v32 s.
Proof.
  induction m as [|x m IH]; intros [|y s] c Hl Hm Hs Hc; try discriminate.
  - exists [], c. cbn [add_loop v32 length]. change (2 ^ (32 * Z.of_nat 0)) with 1. repeat split; auto; lia.
  - inversion Hm as [|? ? Hx Hm']; inversion Hs as [|? ? Hy Hs']; subst. unfold r32 in Hx, Hy.
    cbn [add_loop]. rewrite !chk_u64_ok by lia. cbn [bind].
    rewrite chk_u64_ok by lia. cbn [bind]. unfold WORD_BITS. rewrite shr32, wrap32_mod.
    destruct (IH s ((c + (x + y)) / 2 ^ 32)) as (r & c' & H1 & H2 & H3 & H4 & H5); auto.
    { split; [ apply Z.div_pos; lia | ].
      assert ((c + (x + y)) / 2 ^ 32 < 2) by (apply Z.div_lt_upper_bound; lia). lia. }
    rewrite H1. cbn [bind]. eexists _, c'. split; [ reflexivity | ].
    split; [ cbn [length]; congruence | ]. split.
    { constructor; [ apply Z.mod_pos_bound; lia | exact H3 ]. }
    split; [ exact H4 | ].
    cbn [length v32]. rewrite pow32_S.
    pose proof (Z.div_mod (c + (x + y)) (2 ^ 32) ltac:(lia)).
    generalize dependent (2 ^ (32 * Z.of_nat (length m))). intros P HP.
    rewrite <- Z.mul_assoc. lia.
Qed.
Lemma sadd_ok : forall a b, red a -> red b ->
  exists r, sadd a b = Some r /\ red r /\ v32 r = (v32 a + v32 b) mod q448.
Proof.
  intros a b ((A1 & A2) & A3) ((B1 & B2) & B3). unfold sadd.
  destruct (add_loop_ok a b 0) as (r & c & H1 & H2 & H3 & H4 & H5); auto; [ congruence | lia | ].
  rewrite H1. cbn [bind]. rewrite A1 in H2, H5. change (32 * Z.of_nat 14) with 448 in H5.
  rewrite wrap32_small by lia.
  pose proof (v32_range a A2). pose proof (v32_range b B2).
  destruct (sub_extra_ok r SCALAR_Q c) as (t & K1 & K2 & K3).
  - split; assumption.
  - exact q_wf.
  - lia.
  - rewrite v32_q. lia.
  - exists t. split; [ exact K1 | ]. split; [ exact K2 | ]. rewrite K3, v32_q.
    replace (2 ^ 448 * c + v32 r - q448) with (v32 a + v32 b + (-1) * q448) by lia.
    apply Z.mod_add. discriminate.
Qed.
Lemma ssub_ok : forall a b, red a -> red b ->
  exists r, ssub a b = Some r /\ red r /\ v32 r = (v32 a - v32 b) mod q448.
Proof.
  intros a b (A1 & A2) (B1 & B2). unfold ssub.
  pose proof (wf_range a A1). pose proof (wf_range b B1).
  destruct (sub_extra_ok a b 0 A1 B1 ltac:(lia) ltac:(lia)) as (r & H1 & H2 & H3).
  exists r. split; [ exact H1 | ]. split; [ exact H2 | ]. rewrite H3. reflexivity.
Qed.

(* halve *)
Lemma halve_loop_ok : forall s qs c b, length s = length qs -> Forall r32 s -> Forall r32 qs -> 0 <= c <= 1 ->
  let mask := if b : bool then 0xffffffff else 0 in
  let '(r, c') := halve_loop mask c s qs in
  length r = length s /\ Forall r32 r /\ 0 <= c' <= 1 /\
    v32 r + 2 ^ (32 * Z.of_nat (length s)) * c' = c + v32 s + (if b then 1 else 0) * v32 qs.
Proof.
  induction s as [|x s IH]; intros [|y qs] c b Hl Hm Hs Hc; try discriminate.
  - cbn [halve_loop v32 length]. change (2 ^ (32 * Z.of_nat 0)) with 1. repeat split; auto; try lia.
  - inversion Hm as [|? ? Hx Hm']; inversion Hs as [|? ? Hy Hs']; subst. unfold r32 in Hx, Hy.
    cbv zeta. cbn [halve_loop].
    set (mask := if b then 0xffffffff else 0).
    set (B := if b then 1 else 0).
    assert (E : Z.land y mask = B * y).
    { unfold mask, B. destruct b; [ | apply Z.land_0_r ].
      change (Z.land y 0xffffffff) with (wrap32 y). rewrite wrap32_small by lia. lia. }
    assert (Eb : 0 <= B * y < 2 ^ 32) by (unfold B; destruct b; lia).
    rewrite E. unfold wadd64. rewrite !wrap64_small by (rewrite ?wrap64_small; lia).
    unfold WORD_BITS. rewrite shr32, wrap32_mod.
    specialize (IH qs ((c + (x + B * y)) / 2 ^ 32) b ltac:(simpl in Hl; congruence) Hm' Hs').
    cbv zeta in IH. fold mask in IH. fold B in IH.
    destruct (halve_loop mask ((c + (x + B * y)) / 2 ^ 32) s qs) as (r, c').
    destruct IH as (H2 & H3 & H4 & H5).
    { split; [ apply Z.div_pos; lia | ].
      assert ((c + (x + B * y)) / 2 ^ 32 < 2) by (apply Z.div_lt_upper_bound; lia). lia. }
    split; [ cbn [length]; congruence | ]. split.
    { constructor; [ apply Z.mod_pos_bound; lia | exact H3 ]. }
    split; [ exact H4 | ].
    cbn [length v32]. rewrite pow32_S.
    pose proof (Z.div_mod (c + (x + B * y)) (2 ^ 32) ltac:(lia)).
    generalize dependent (2 ^ (32 * Z.of_nat (length s))). intros P HP.
    rewrite <- Z.mul_assoc, (Z.mul_add_distr_l B). replace (B * (2 ^ 32 * v32 qs)) with (2 ^ 32 * (B * v32 qs)) by ring. lia.
Qed.
Lemma shr1 : forall x, Z.shiftr x 1 = x / 2.
Proof. intro x. rewrite Z.shiftr_div_pow2 by lia. reflexivity. Qed.
Lemma shl31 : forall y, shl32 y 31 = 2 ^ 31 * (y mod 2).
Proof.
  intro y. unfold shl32. rewrite wrap32_mod, Z.shiftl_mul_pow2 by lia.
  change (2 ^ 32) with (2 * 2 ^ 31). rewrite Zmult_mod_distr_r. ring.
Qed.
Lemma lor_31 : forall x b, 0 <= x < 2 ^ 31 -> Z.lor x (2 ^ 31 * b) = x + 2 ^ 31 * b.
Proof. intros x b H. rewrite <- (lor_shift 31 x b) by lia. rewrite Z.shiftl_mul_pow2 by lia. f_equal. ring. Qed.
Lemma half_bd : forall x, r32 x -> 0 <= x / 2 < 2 ^ 31.
Proof. unfold r32. intros x H. split; [ apply Z.div_pos; lia | apply Z.div_lt_upper_bound; lia ]. Qed.
Lemma shift_loop_ok : forall s c, Forall r32 s -> 0 <= c <= 1 -> s <> [] ->
  length (shift_loop c s) = length s /\ Forall r32 (shift_loop c s) /\
  v32 (shift_loop c s) = (v32 s + 2 ^ (32 * Z.of_nat (length s)) * c) / 2.
Proof.
  induction s as [|x s IH]; intros c Hs Hc Hne; [ congruence | ].
  inversion Hs as [|? ? Hx Hs']; subst. pose proof (half_bd x Hx) as HB.
  destruct s as [|y s'].
  - cbn [shift_loop length v32]. unfold WORD_BITS. change (32 - 1) with 31.
    rewrite shr1. unfold shl64. rewrite Z.shiftl_mul_pow2 by lia.
    rewrite wrap64_small, wrap32_small by lia. rewrite Z.mul_comm, lor_31 by lia.
    change (2 ^ (32 * Z.of_nat 1)) with (2 ^ 31 * 2).
    split; [ reflexivity | ]. split.
    + constructor; [ unfold r32; lia | constructor ].
    + replace (x + 2 ^ 32 * 0 + 2 ^ 31 * 2 * c) with (x + 2 ^ 31 * c * 2) by ring.
      rewrite Z.div_add by lia. lia.
  - destruct (IH c Hs' Hc ltac:(discriminate)) as (H1 & H2 & H3).
    change (shift_loop c (x :: y :: s')) with
      (Z.lor (Z.shiftr x 1) (shl32 y (WORD_BITS - 1)) :: shift_loop c (y :: s')).
    unfold WORD_BITS. change (32 - 1) with 31. rewrite shr1, shl31, lor_31 by exact HB.
    pose proof (Z.mod_pos_bound y 2 ltac:(lia)).
    split; [ cbn [length] in *; congruence | ]. split.
    + constructor; [ unfold r32; lia | exact H2 ].
    + cbn [v32]. rewrite H3. cbn [length]. rewrite !pow32_S. set (P := 2 ^ (32 * Z.of_nat (length s'))).
      cbn [v32]. set (T := y + 2 ^ 32 * v32 s' + 2 ^ 32 * P * c).
      replace (x + 2 ^ 32 * (y + 2 ^ 32 * v32 s') + 2 ^ 32 * (2 ^ 32 * P) * c) with (x + (2 ^ 31 * T) * 2)
        by (unfold T; change (2 ^ 32) with (2 ^ 31 * 2); ring).
      rewrite Z.div_add by lia.
      assert (ET : T mod 2 = y mod 2).
      { unfold T. replace (y + 2 ^ 32 * v32 s' + 2 ^ 32 * P * c) with (y + (2 ^ 31 * v32 s' + 2 ^ 31 * P * c) * 2)
          by (change (2 ^ 32) with (2 ^ 31 * 2); ring). apply Z.mod_add. lia. }
      pose proof (Z.div_mod T 2 ltac:(lia)). lia.
Qed.
Lemma halve_ok : forall s, wf s -> wf (halve s) /\
  v32 (halve s) = (v32 s + (if Z.odd (v32 s) then q448 else 0)) / 2.
Proof.
  intros s (S1 & S2). unfold halve.
  destruct s as [|x s']; [ discriminate | ].
  inversion S2 as [|? ? Hx S2']; subst.
  assert (EM : wsub32 0 (Z.land (hd 0 (x :: s')) 1) = if Z.odd (v32 (x :: s')) then 0xffffffff else 0).
  { cbn [hd v32]. change (Z.land x 1) with (Z.land x (Z.ones 1)). rewrite Z.land_ones by lia. change (2 ^ 1) with 2.
    rewrite Z.odd_add. change (2 ^ 32) with (2 * 2 ^ 31). rewrite <- !Z.mul_assoc, Z.odd_mul.
    change (Z.odd 2) with false. rewrite andb_false_l, xorb_false_r.
    rewrite Zmod_odd. destruct (Z.odd x); reflexivity. }
  rewrite EM. destruct q_wf as (Q1 & Q2).
  pose proof (halve_loop_ok (x :: s') SCALAR_Q 0 (Z.odd (v32 (x :: s'))) ltac:(congruence) S2 Q2 ltac:(lia)) as H.
  cbv zeta in H.
  destruct (halve_loop (if Z.odd (v32 (x :: s')) then 0xffffffff else 0) 0 (x :: s') SCALAR_Q) as (r, c).
  destruct H as (H1 & H2 & H3 & H4).
  destruct (shift_loop_ok r c H2 H3) as (K1 & K2 & K3).
  { intros ->. rewrite S1 in H1. discriminate. }
  split; [ split; [ congruence | exact K2 ] | ].
  rewrite K3. f_equal. rewrite H1, H4, v32_q. destruct (Z.odd _); lia.
Qed.
Lemma halve_red : forall s, red s -> red (halve s) /\ (2 * v32 (halve s)) mod q448 = v32 s mod q448.
Proof.
  intros s (S1 & S2). destruct (halve_ok s S1) as (H1 & H2). pose proof (wf_range s S1).
  assert (OQ : Z.odd q448 = true) by reflexivity.
  assert (E : 2 * v32 (halve s) = v32 s + (if Z.odd (v32 s) then q448 else 0)).
  { rewrite H2. symmetry. apply Z_div_exact_2; [ lia | ].
    rewrite Zmod_odd. rewrite Z.odd_add. destruct (Z.odd (v32 s)) eqn:O; [ rewrite OQ | ]; reflexivity. }
  split.
  - split; [ exact H1 | ]. destruct (Z.odd (v32 s)); lia.
  - rewrite E. destruct (Z.odd (v32 s)); [ | f_equal; lia ].
    rewrite <- (Z.mul_1_l q448) at 1. apply Z.mod_add. discriminate.
Qed.

(* Montgomery multiplication *)
Lemma mac_loop_ok : forall y out xi c, length y = length out -> Forall r32 y -> Forall r32 out -> r32 xi -> r32 c ->
  let '(r, c') := mac_loop xi c y out in
  length r = length y /\ Forall r32 r /\ r32 c' /\
    v32 r + 2 ^ (32 * Z.of_nat (length y)) * c' = c + xi * v32 y + v32 out.
Proof.
  induction y as [|a y IH]; intros [|o out] xi c Hl Hy Ho Hx Hc; try discriminate.
  - cbn [mac_loop v32 length]. change (2 ^ (32 * Z.of_nat 0)) with 1. repeat split; auto; unfold r32 in *; lia.
  - inversion Hy as [|? ? Ha Hy']; inversion Ho as [|? ? Hoo Ho']; subst.
    cbn [mac_loop].
    assert (B : 0 <= xi * a + o + c < 2 ^ 64) by (unfold r32 in *; nia).
    assert (E : wadd64 (wadd64 (wmul64 xi a) o) c = xi * a + o + c).
    { unfold wadd64, wmul64. rewrite (wrap64_small (xi * a)) by (unfold r32 in *; nia).
      rewrite (wrap64_small (xi * a + o)) by (unfold r32 in *; nia). apply wrap64_small. exact B. }
    rewrite E. unfold WORD_BITS. rewrite shr32, wrap32_mod.
    specialize (IH out xi ((xi * a + o + c) / 2 ^ 32) ltac:(simpl in Hl; congruence) Hy' Ho' Hx).
    destruct (mac_loop xi ((xi * a + o + c) / 2 ^ 32) y out) as (r, c').
    destruct IH as (H2 & H3 & H4 & H5).
    { unfold r32. split; [ apply Z.div_pos; lia | apply Z.div_lt_upper_bound; lia ]. }
    split; [ cbn [length]; congruence | ]. split.
    { constructor; [ apply Z.mod_pos_bound; lia | exact H3 ]. }
    split; [ exact H4 | ].
    cbn [length v32]. rewrite pow32_S.
    pose proof (Z.div_mod (xi * a + o + c) (2 ^ 32) ltac:(lia)).
    generalize dependent (2 ^ (32 * Z.of_nat (length y))). intros P HP.
    rewrite <- Z.mul_assoc. replace (xi * (a + 2 ^ 32 * v32 y)) with (xi * a + 2 ^ 32 * (xi * v32 y)) by ring. lia.
Qed.
Lemma v32_app1 : forall l x, v32 (l ++ [x]) = v32 l + 2 ^ (32 * Z.of_nat (length l)) * x.
Proof.
  induction l as [|a l IH]; intro x; cbn [app v32 length].
  - change (2 ^ (32 * Z.of_nat 0)) with 1. lia.
  - rewrite IH, pow32_S. ring.
Qed.
Lemma mont_mul_low : forall o0, (o0 + wmul32 o0 MONTGOMERY_FACTOR * 0xab5844f3) mod 2 ^ 32 = 0.
Proof.
  intro o0. unfold wmul32. rewrite wrap32_mod.
  rewrite Z.add_mod, Z.mul_mod, Z.mod_mod, <- Z.mul_mod, <- Z.add_mod by lia.
  replace (o0 + o0 * MONTGOMERY_FACTOR * 0xab5844f3) with (o0 * (1 + MONTGOMERY_FACTOR * 0xab5844f3)) by ring.
  rewrite Z.mul_mod by lia. change ((1 + MONTGOMERY_FACTOR * 0xab5844f3) mod 2 ^ 32) with 0.
  rewrite Z.mul_0_r. reflexivity.
Qed.
Lemma v32_q_words : exists qt, SCALAR_Q = 0xab5844f3 :: qt.
Proof. eexists. reflexivity. Qed.

Lemma mont_step : forall xi y out carry, r32 xi -> wf y -> v32 y <= q448 -> wf out -> 0 <= carry <= 1 ->
  v32 out + 2 ^ 448 * carry < v32 y + q448 ->
  exists out' carry' m,
    (forall x', mont_loop (xi :: x') y out carry = mont_loop x' y out' carry') /\
    wf out' /\ 0 <= carry' <= 1 /\ 0 <= m < 2 ^ 32 /\
    2 ^ 32 * (v32 out' + 2 ^ 448 * carry') = v32 out + 2 ^ 448 * carry + xi * v32 y + m * q448 /\
    v32 out' + 2 ^ 448 * carry' < v32 y + q448.
Proof.
  intros xi y out carry Hx (Y1 & Y2) Yq (O1 & O2) Hc HA.
  cbn [mont_loop].
  pose proof (mac_loop_ok y out xi 0 ltac:(congruence) Y2 O2 Hx ltac:(unfold r32; lia)) as M1.
  destruct (mac_loop xi 0 y out) as (out1, c1). destruct M1 as (A1 & A2 & A3 & A4).
  rewrite Y1 in A1, A4. change (32 * Z.of_nat 14) with 448 in A4.
  set (m := wmul32 (hd 0 out1) MONTGOMERY_FACTOR).
  assert (Hm : r32 m) by (unfold m, wmul32; apply wrap32_range).
  destruct q_wf as (Q1 & Q2).
  pose proof (mac_loop_ok SCALAR_Q out1 m 0 ltac:(congruence) Q2 A2 Hm ltac:(unfold r32; lia)) as M2.
  destruct (mac_loop m 0 SCALAR_Q out1) as (out2, c2) eqn:EM. destruct M2 as (B1 & B2 & B3 & B4).
  rewrite Q1 in B1, B4. change (32 * Z.of_nat 14) with 448 in B4. rewrite v32_q in B4.
  rewrite (wrap32_small c1) by exact A3.
  unfold r32 in A3, B3, Hm, Hx. unfold wadd64.
  rewrite (wrap64_small (c1 + carry)) by lia. rewrite (wrap64_small (c1 + carry + c2)) by lia.
  set (s := c1 + carry + c2).
  destruct out2 as [|z0 out2]; [ discriminate | ]. cbn [tl].
  (* the dropped cell is zero *)
  inversion B2 as [|? ? Z0 B2']; subst.
  assert (Z0' : z0 = 0).
  { destruct out1 as [|o0 out1]; [ discriminate | ]. cbn [hd] in m.
    assert (E0 : (z0 - (o0 + m * 0xab5844f3)) mod 2 ^ 32 = 0).
    { cbn [v32] in B4. replace q448 with (0xab5844f3 + 2 ^ 32 * v32 (tl SCALAR_Q)) in B4 by reflexivity.
      replace (z0 - (o0 + m * 0xab5844f3)) with
        ((v32 out1 + m * v32 (tl SCALAR_Q) - v32 out2 - 2 ^ 416 * c2) * 2 ^ 32).
      - apply Z.mod_mul. lia.
      - change (2 ^ 448) with (2 ^ 32 * 2 ^ 416) in B4. generalize dependent (2 ^ 416). intros. lia. }
    pose proof (mont_mul_low o0) as L. fold m in L.
    rewrite Zminus_mod, L, Z.sub_0_r, Z.mod_mod in E0 by lia.
    unfold r32 in Z0. rewrite Z.mod_small in E0 by lia. exact E0. }
  subst z0.
  assert (S0 : 0 <= s < 2 ^ 34) by (unfold s; lia).
  unfold WORD_BITS. rewrite shr32, wrap32_mod.
  assert (SD : 0 <= s / 2 ^ 32 < 4) by (split; [ apply Z.div_pos; lia | apply Z.div_lt_upper_bound; lia ]).
  rewrite (wrap32_small (s / 2 ^ 32)) by lia.
  exists (out2 ++ [s mod 2 ^ 32]), (s / 2 ^ 32), m.
  split; [ reflexivity | ].
  cbn [length] in B1. assert (L2 : length out2 = 13%nat) by congruence.
  assert (V : v32 (out2 ++ [s mod 2 ^ 32]) + 2 ^ 448 * (s / 2 ^ 32) = v32 out2 + 2 ^ 416 * s).
  { rewrite v32_app1, L2. change (32 * Z.of_nat 13) with 416.
    change (2 ^ 448) with (2 ^ 416 * 2 ^ 32).
    pose proof (Z.div_mod s (2 ^ 32) ltac:(lia)) as D. rewrite D at 3. ring. }
  assert (TOT : 2 ^ 32 * (v32 out2 + 2 ^ 416 * s) = v32 out + 2 ^ 448 * carry + xi * v32 y + m * q448).
  { cbn [v32] in B4. unfold s. change (2 ^ 448) with (2 ^ 32 * 2 ^ 416) in *.
    generalize dependent (2 ^ 416). intros. lia. }
  assert (BND : v32 out2 + 2 ^ 416 * s < v32 y + q448).
  { pose proof (v32_range y Y2) as YR. generalize dependent (v32 out2 + 2 ^ 416 * s). intros t Ht.
    assert (xi * v32 y <= (2 ^ 32 - 1) * v32 y) by (apply Z.mul_le_mono_nonneg_r; lia).
    assert (m * q448 <= (2 ^ 32 - 1) * q448) by (apply Z.mul_le_mono_nonneg_r; [ discriminate | lia ]).
    lia. }
  rewrite V. split.
  { split; [ rewrite app_length, L2; reflexivity | ]. apply Forall_app. split; [ exact B2' | ].
    constructor; [ apply Z.mod_pos_bound; lia | constructor ]. }
  split; [ | split; [ exact Hm | split; [ exact TOT | exact BND ] ] ].
  split; [ lia | ].
  (* carry' <= 1 because the value is below 2^447 *)
  pose proof q448_bounds as QB.
  assert (R : 0 <= v32 (out2 ++ [s mod 2 ^ 32])).
  { apply v32_range. apply Forall_app. split; [ exact B2' | ].
    constructor; [ apply Z.mod_pos_bound; lia | constructor ]. }
  assert (2 ^ 448 * (s / 2 ^ 32) < 2 ^ 448 * 1) by lia. lia.
Qed.

Lemma mont_loop_ok : forall x y out carry, Forall r32 x -> wf y -> v32 y <= q448 -> wf out -> 0 <= carry <= 1 ->
  v32 out + 2 ^ 448 * carry < v32 y + q448 ->
  exists out' carry' m, mont_loop x y out carry = (out', carry') /\
    wf out' /\ 0 <= carry' <= 1 /\
    2 ^ (32 * Z.of_nat (length x)) * (v32 out' + 2 ^ 448 * carry')
      = v32 out + 2 ^ 448 * carry + v32 x * v32 y + m * q448 /\
    v32 out' + 2 ^ 448 * carry' < v32 y + q448.
Proof.
  induction x as [|xi x IH]; intros y out carry Hx Hy Yq Ho Hc HA.
  - exists out, carry, 0. cbn [mont_loop length v32]. change (2 ^ (32 * Z.of_nat 0)) with 1.
    repeat split; auto; try lia; apply Ho.
  - inversion Hx as [|? ? Hxi Hx']; subst.
    destruct (mont_step xi y out carry Hxi Hy Yq Ho Hc HA) as (out1 & c1 & m1 & A1 & A2 & A3 & A4 & A5 & A6).
    destruct (IH y out1 c1 Hx' Hy Yq A2 A3 A6) as (out2 & c2 & m2 & B1 & B2 & B3 & B4 & B5).
    exists out2, c2, (m1 + 2 ^ 32 * m2). rewrite A1. split; [ exact B1 | ].
    split; [ exact B2 | ]. split; [ exact B3 | ]. split; [ | exact B5 ].
    cbn [length v32]. rewrite pow32_S, <- Z.mul_assoc, B4.
    rewrite !Z.mul_add_distr_l, !Z.mul_add_distr_r. 
    replace (2 ^ 32 * v32 out1 + 2 ^ 32 * (2 ^ 448 * c1)) with (2 ^ 32 * (v32 out1 + 2 ^ 448 * c1)) by ring.
    rewrite A5. ring.
Qed.

Lemma montgomery_ok : forall x y, wf x -> red y ->
  exists r, montgomery_multiply x y = Some r /\ red r /\
    (v32 r * 2 ^ 448) mod q448 = (v32 x * v32 y) mod q448.
Proof.
  intros x y (X1 & X2) (Y1 & Y2). unfold montgomery_multiply.
  destruct (mont_loop_ok x y create_zero_scalar 0 X2 Y1 ltac:(lia) wf_zero ltac:(lia))
    as (out & c & m & H1 & H2 & H3 & H4 & H5).
  { unfold create_zero_scalar. rewrite v32_zero. pose proof (wf_range y Y1). pose proof q448_bounds. lia. }
  rewrite H1. rewrite X1 in H4. change (32 * Z.of_nat 14) with 448 in H4.
  unfold create_zero_scalar in H4. rewrite v32_zero in H4.
  pose proof (wf_range out H2).
  destruct (sub_extra_ok out SCALAR_Q c H2 q_wf H3) as (r & K1 & K2 & K3).
  { rewrite v32_q. lia. }
  exists r. split; [ exact K1 | ]. split; [ exact K2 | ].
  rewrite K3, v32_q.
  replace (2 ^ 448 * c + v32 out - q448) with (v32 out + 2 ^ 448 * c + (-1) * q448) by ring.
  rewrite Z.mod_add, Z.mul_mod_idemp_l by discriminate.
  rewrite Z.mul_comm, H4. replace (0 + 2 ^ 448 * 0 + v32 x * v32 y + m * q448) with (v32 x * v32 y + m * q448) by ring.
  apply Z.mod_add. discriminate.
Qed.

(* 2^448 is invertible mod q *)
Definition RINV : Z := 122435451209282851423691810270081151561577261514999717915537728496850358421739309541270377469545287278519018844405564191923328477730454.
Lemma rinv_ok : (2 ^ 448 * RINV) mod q448 = 1.
Proof. vm_compute. reflexivity. Qed.
Lemma r_cancel : forall a b, (a * 2 ^ 448) mod q448 = (b * 2 ^ 448) mod q448 -> a mod q448 = b mod q448.
Proof.
  intros a b H.
  assert (G : forall z, (z * 2 ^ 448 mod q448 * RINV) mod q448 = z mod q448).
  { intro z. rewrite Z.mul_mod_idemp_l, <- Z.mul_assoc, <- Z.mul_mod_idemp_r, rinv_ok, Z.mul_1_r by discriminate.
    reflexivity. }
  rewrite <- (G a), <- (G b), H. reflexivity.
Qed.
Lemma red_r2 : red SCALAR_R2.
Proof. split; [ exact wf_r2 | ]. reflexivity. Qed.
Lemma red_one : red SCALAR_ONE.
Proof. split; [ exact wf_one | ]. reflexivity. Qed.
Lemma red_zero : red SCALAR_ZERO.
Proof. split; [ exact wf_zero | ]. reflexivity. Qed.
Lemma red_mod : forall s, red s -> v32 s mod q448 = v32 s.
Proof. intros s (H1 & H2). apply Z.mod_small. pose proof (wf_range s H1). lia. Qed.

Lemma mont_r2 : forall x, wf x -> exists r, montgomery_multiply x SCALAR_R2 = Some r /\ red r /\
  v32 r = (v32 x * 2 ^ 448) mod q448.
Proof.
  intros x Hx. destruct (montgomery_ok x SCALAR_R2 Hx red_r2) as (r & H1 & H2 & H3).
  exists r. split; [ exact H1 | ]. split; [ exact H2 | ].
  rewrite <- (red_mod r H2). apply r_cancel. rewrite H3, v32_r2, Z.mul_mod_idemp_r by discriminate.
  f_equal. change (2 ^ 896) with (2 ^ 448 * 2 ^ 448). ring.
Qed.
Lemma smul_ok : forall x y, wf x -> red y ->
  exists r, smul x y = Some r /\ red r /\ v32 r = (v32 x * v32 y) mod q448.
Proof.
  intros x y Hx Hy. unfold smul.
  destruct (montgomery_ok x y Hx Hy) as (s & H1 & H2 & H3). rewrite H1. cbn [bind].
  destruct (mont_r2 s (proj1 H2)) as (r & K1 & K2 & K3).
  exists r. split; [ exact K1 | ]. split; [ exact K2 | ]. rewrite K3, H3. reflexivity.
Qed.

(* decode_short *)
Lemma le_val_cons_firstn : forall n x t, le_val (firstn (S n) (x :: t)) = x + 256 * le_val (firstn n t).
Proof. reflexivity. Qed.
Lemma short_word_ok : forall n j pre rest tail out, bytes rest -> 0 <= j -> j + Z.of_nat n = 4 ->
  0 <= out < 2 ^ (8 * j) ->
  let l := firstn n rest in
  short_word n j (pre ++ rest ++ tail) (Z.of_nat (length pre + length rest)) (Z.of_nat (length pre)) out
  = Some (out + 2 ^ (8 * j) * le_val l, Z.of_nat (length pre + length l)).
Proof.
  induction n as [|n IH]; intros j pre rest tail out Hb Hj Hn Ho; cbv zeta.
  - cbn [short_word firstn le_val length]. rewrite Z.mul_0_r, Z.add_0_r, Nat.add_0_r. reflexivity.
  - cbn [short_word]. destruct rest as [|x rest].
    + cbn [length firstn le_val]. rewrite Nat.add_0_r, Z.geb_leb, Z.leb_refl, Z.mul_0_r, Z.add_0_r. reflexivity.
    + assert (E : (Z.of_nat (length pre) >=? Z.of_nat (length pre + length (x :: rest))) = false).
      { rewrite Z.geb_leb. apply Z.leb_gt. cbn [length]. lia. }
      rewrite E. cbn [app]. rewrite znth_app_r. cbn [bind].
      inversion Hb as [|? ? Hx Hb']; subst. unfold byte in Hx.
      assert (P : 2 ^ (8 * (j + 1)) = 256 * 2 ^ (8 * j)).
      { replace (8 * (j + 1)) with (8 + 8 * j) by lia. rewrite Z.pow_add_r by lia. reflexivity. }
      assert (PL : 2 ^ (8 * (j + 1)) <= 2 ^ 32) by (apply Z.pow_le_mono_r; lia).
      assert (PP : 0 < 2 ^ (8 * j)) by (apply Z.pow_pos_nonneg; lia).
      assert (S1 : shl32 x (8 * j) = Z.shiftl x (8 * j)).
      { unfold shl32. apply wrap32_small. rewrite Z.shiftl_mul_pow2 by lia. nia. }
      rewrite S1, lor_shift by lia.
      specialize (IH (j + 1) (pre ++ [x]) rest tail (out + 2 ^ (8 * j) * x) Hb' ltac:(lia) ltac:(lia)).
      cbv zeta in IH. rewrite <- app_assoc in IH. cbn [app] in IH. rewrite app_length in IH. cbn [length] in IH.
      replace (length pre + 1 + length rest)%nat with (length pre + S (length rest))%nat in IH by lia.
      replace (Z.of_nat (length pre + 1)) with (Z.of_nat (length pre) + 1) in IH by lia.
      cbn [length]. rewrite IH by nia.
      rewrite le_val_cons_firstn. cbn [firstn length]. rewrite P.
      f_equal. f_equal; [ ring | lia ].
Qed.
Lemma short_word4 : forall pre rest tail, bytes rest ->
  short_word 4 0 (pre ++ rest ++ tail) (Z.of_nat (length pre + length rest)) (Z.of_nat (length pre)) 0
  = Some (le_val (firstn 4 rest), Z.of_nat (length pre + length (firstn 4 rest))).
Proof.
  intros pre rest tail H. rewrite (short_word_ok 4 0 pre rest tail 0 H) by (change (2 ^ (8 * 0)) with 1; lia).
  change (2 ^ (8 * 0)) with 1. rewrite Z.add_0_l, Z.mul_1_l. reflexivity.
Qed.
Lemma bytes_firstn : forall n l, bytes l -> bytes (firstn n l).
Proof. intros n l H. rewrite <- (firstn_skipn n l) in H. apply bytes_app in H. apply H. Qed.
Lemma bytes_skipn : forall n l, bytes l -> bytes (skipn n l).
Proof. intros n l H. rewrite <- (firstn_skipn n l) in H. apply bytes_app in H. apply H. Qed.
Lemma le_val_split : forall n l, (n <= length l)%nat \/ skipn n l = [] ->
  le_val l = le_val (firstn n l) + 256 ^ Z.of_nat n * le_val (skipn n l).
Proof.
  intros n l H. rewrite <- (firstn_skipn n l) at 1. rewrite le_val_app.
  destruct H as [H|H].
  - rewrite firstn_length_le by exact H. reflexivity.
  - rewrite H. cbn [le_val]. ring.
Qed.
Lemma short_words_ok : forall w pre rest tail, bytes rest -> (length rest <= 4 * w)%nat ->
  exists r, short_words w (pre ++ rest ++ tail) (Z.of_nat (length pre + length rest)) (Z.of_nat (length pre)) = Some r /\
    length r = w /\ Forall r32 r /\ v32 r = le_val rest.
Proof.
  induction w as [|w IH]; intros pre rest tail Hb Hl.
  - destruct rest; [ | cbn [length] in Hl; lia ]. exists []. repeat split; constructor.
  - cbn [short_words]. rewrite (short_word4 pre rest tail Hb). cbn [bind].
    destruct (IH (pre ++ firstn 4 rest) (skipn 4 rest) tail) as (r & H1 & H2 & H3 & H4).
    { apply bytes_skipn. exact Hb. }
    { rewrite skipn_length. lia. }
    rewrite <- app_assoc, (app_assoc (firstn 4 rest)), firstn_skipn in H1.
    rewrite app_length in H1.
    replace (length pre + length (firstn 4 rest) + length (skipn 4 rest))%nat with (length pre + length rest)%nat in H1
      by (rewrite <- (firstn_skipn 4 rest) at 1; rewrite app_length; lia).
    rewrite H1. cbn [bind]. eexists. split; [ reflexivity | ].
    split; [ cbn [length]; congruence | ]. split.
    + constructor; [ | exact H3 ]. pose proof (le_val_range _ (bytes_firstn 4 rest Hb)) as R.
      assert (L : (length (firstn 4 rest) <= 4)%nat) by apply firstn_le_length.
      assert (256 ^ Z.of_nat (length (firstn 4 rest)) <= 256 ^ 4) by (apply Z.pow_le_mono_r; lia).
      unfold r32. change (256 ^ 4) with (2 ^ 32) in *. lia.
    + cbn [v32]. rewrite H4. symmetry. apply (le_val_split 4).
      destruct (Nat.le_gt_cases 4 (length rest)); [ left; assumption | right; apply skipn_all2; lia ].
Qed.
Lemma decode_short_ok : forall rest tail, bytes rest -> (length rest <= 56)%nat ->
  exists r, decode_short (rest ++ tail) (Z.of_nat (length rest)) = Some r /\ wf r /\ v32 r = le_val rest.
Proof.
  intros rest tail Hb Hl. unfold decode_short.
  destruct (short_words_ok 14 [] rest tail Hb Hl) as (r & H1 & H2 & H3 & H4).
  exists r. split; [ exact H1 | ]. split; [ split; assumption | exact H4 ].
Qed.
Lemma decode_accum_ok : forall s qs a, Forall r32 s -> Forall r32 qs -> -1 <= a <= 0 ->
  exists r, decode_accum a s qs = Some r.
Proof.
  induction s as [|x s IH]; intros [|y qs] a Hs Hq Ha; cbn [decode_accum]; eauto.
  inversion Hs as [|? ? Hx Hs']; inversion Hq as [|? ? Hy Hq']; subst. unfold r32 in Hx, Hy.
  rewrite !chk_i64_ok by lia. cbn [bind]. rewrite chk_i64_ok by lia. cbn [bind].
  unfold WORD_BITS. rewrite shr32. apply IH; auto.
  split; [ apply Z.div_le_lower_bound; lia | ].
  assert ((a + (x - y)) / 2 ^ 32 < 1) by (apply Z.div_lt_upper_bound; lia). lia.
Qed.
Lemma decode_ok : forall b tail, bytes b -> length b = 56%nat ->
  exists r, decode (b ++ tail) = Some r /\ red r /\ v32 r = le_val b mod q448.
Proof.
  intros b tail Hb Hl. unfold decode, SCALAR_BYTES.
  destruct (decode_short_ok b tail Hb ltac:(lia)) as (s & H1 & H2 & H3). rewrite Hl in H1.
  change (Z.of_nat 56) with 56 in H1. rewrite H1. cbn [bind].
  destruct (decode_accum_ok s SCALAR_Q 0 (proj2 H2) (proj2 q_wf) ltac:(lia)) as (a & Ea).
  rewrite Ea. cbn [bind].
  destruct (smul_ok s SCALAR_ONE H2 red_one) as (r & K1 & K2 & K3).
  exists r. split; [ exact K1 | ]. split; [ exact K2 | ]. rewrite K3, v32_one, H3, Z.mul_1_r. reflexivity.
Qed.

(* encode *)
Lemma flat_words : forall s, Forall r32 s ->
  flat_map (fun w => [Z.land w 0xff; Z.land (Z.shiftr w 8) 0xff;
                      Z.land (Z.shiftr w 16) 0xff; Z.land (Z.shiftr w 24) 0xff]) s
  = le_bytes (4 * length s) (v32 s).
Proof.
  induction 1 as [|x s Hx Hs IH]; [ reflexivity | ].
  cbn [flat_map]. rewrite IH. cbn [length]. replace (4 * S (length s))%nat with (S (S (S (S (4 * length s))))) by lia.
  cbn [le_bytes v32 app]. unfold r32 in Hx.
  change 0xff with (Z.ones 8). rewrite !Z.land_ones, !Z.shiftr_div_pow2 by lia.
  rewrite !Z.div_div by lia.
  change (2 ^ 32) with 4294967296 in *. change (2 ^ 8) with 256. change (2 ^ 16) with 65536. change (2 ^ 24) with 16777216.
  change (256 * 256) with 65536. change (65536 * 256) with 16777216. change (16777216 * 256) with 4294967296.
  assert (E1 : (x + 4294967296 * v32 s) mod 256 = x mod 256).
  { replace (x + 4294967296 * v32 s) with (x + (16777216 * v32 s) * 256) by ring. apply Z.mod_add. lia. }
  assert (E2 : (x + 4294967296 * v32 s) / 256 mod 256 = x / 256 mod 256).
  { replace (x + 4294967296 * v32 s) with (x + (16777216 * v32 s) * 256) by ring. rewrite Z.div_add by lia.
    replace (x / 256 + 16777216 * v32 s) with (x / 256 + (65536 * v32 s) * 256) by ring. apply Z.mod_add. lia. }
  assert (E3 : (x + 4294967296 * v32 s) / 65536 mod 256 = x / 65536 mod 256).
  { replace (x + 4294967296 * v32 s) with (x + (65536 * v32 s) * 65536) by ring. rewrite Z.div_add by lia.
    replace (x / 65536 + 65536 * v32 s) with (x / 65536 + (256 * v32 s) * 256) by ring. apply Z.mod_add. lia. }
  assert (E4 : (x + 4294967296 * v32 s) / 16777216 mod 256 = x / 16777216 mod 256).
  { replace (x + 4294967296 * v32 s) with (x + (256 * v32 s) * 16777216) by ring. rewrite Z.div_add by lia.
    replace (x / 16777216 + 256 * v32 s) with (x / 16777216 + v32 s * 256) by ring. apply Z.mod_add. lia. }
  assert (E5 : (x + 4294967296 * v32 s) / 4294967296 = v32 s).
  { rewrite Z.mul_comm, Z.div_add by lia. rewrite Z.div_small by lia. reflexivity. }
  rewrite E1, E2, E3, E4, E5. reflexivity.
Qed.
Lemma le_bytes_snoc : forall n z, le_bytes (n + 1) z = le_bytes n z ++ [(z / 256 ^ Z.of_nat n) mod 256].
Proof.
  induction n as [|n IH]; intro z.
  - cbn [Nat.add le_bytes app]. change (256 ^ Z.of_nat 0) with 1. rewrite Z.div_1_r. reflexivity.
  - cbn [Nat.add le_bytes app]. rewrite IH. rewrite pow256_S. rewrite Z.div_div by (pose proof (pow256_pos n); lia).
    reflexivity.
Qed.
Lemma encode_ok : forall s, wf s -> encode s = le_bytes 57 (v32 s).
Proof.
  intros s Hs. unfold encode. rewrite flat_words by apply Hs. rewrite (proj1 Hs).
  change 57%nat with (56 + 1)%nat. rewrite le_bytes_snoc.
  f_equal. f_equal. rewrite Z.div_small; [ reflexivity | ].
  change (256 ^ Z.of_nat 56) with (2 ^ 448). apply wf_range. exact Hs.
Qed.

(* decode_long *)
Lemma long_loop_ok : forall n fuel b rest res, 56 * Z.of_nat n < 2 ^ 64 -> (n <= fuel)%nat -> bytes b -> length b = (56 * n)%nat -> wf res ->
  exists r, long_loop fuel (b ++ rest) (56 * Z.of_nat n) res = Some r /\ wf r /\
    v32 r mod q448 = (le_val b + 2 ^ (448 * Z.of_nat n) * v32 res) mod q448 /\
    ((n > 0)%nat -> red r) /\ (n = 0%nat -> r = res).
Proof.
  induction n as [|n IH]; intros fuel b rest res H64 Hf Hb Hl Hr.
  - assert (b = []) by (destruct b; [ reflexivity | discriminate ]). subst b.
    exists res. destruct fuel; cbn [long_loop]; change (56 * Z.of_nat 0 >? 0) with false; cbv iota;
      (split; [ reflexivity | split; [ exact Hr | split; [ | split; [ lia | auto ] ] ] ];
       change (2 ^ (448 * Z.of_nat 0)) with 1; cbn [le_val]; f_equal; lia).
  - destruct fuel as [|fuel]; [ lia | ]. cbn [long_loop].
    assert (G : (56 * Z.of_nat (S n) >? 0) = true) by (rewrite Z.gtb_lt; lia). rewrite G.
    unfold SCALAR_SER_BYTES. rewrite chk_usize_ok by lia. cbn [bind].
    replace (56 * Z.of_nat (S n) - 56) with (56 * Z.of_nat n) by lia.
    destruct (mont_r2 res Hr) as (r1 & A1 & A2 & A3). rewrite A1. cbn [bind].
    replace (Z.to_nat (56 * Z.of_nat n)) with (56 * n)%nat by lia.
    assert (Lf : length (firstn (56 * n) b) = (56 * n)%nat) by (apply firstn_length_le; lia).
    assert (Es : skipn (56 * n) (b ++ rest) = skipn (56 * n) b ++ rest).
    { rewrite skipn_app. replace (56 * n - length b)%nat with 0%nat by lia. reflexivity. }
    rewrite Es.
    destruct (decode_ok (skipn (56 * n) b) rest) as (y & B1 & B2 & B3).
    { apply bytes_skipn. exact Hb. }
    { rewrite skipn_length. lia. }
    rewrite B1. cbn [bind].
    destruct (sadd_ok r1 y A2 B2) as (r2 & C1 & C2 & C3). rewrite C1. cbn [bind].
    destruct (IH fuel (firstn (56 * n) b) (skipn (56 * n) b ++ rest) r2) as (r & D1 & D2 & D3 & D4 & D5);
      [ lia | lia | apply bytes_firstn; exact Hb | exact Lf | exact (proj1 C2) | ].
    rewrite app_assoc, firstn_skipn in D1.
    exists r. split; [ exact D1 | ]. split; [ exact D2 | ]. split.
    + rewrite D3. rewrite (le_val_split (56 * n) b) by lia.
      rewrite C3, A3, B3.
      replace (256 ^ Z.of_nat (56 * n)) with (2 ^ (448 * Z.of_nat n)).
      2:{ change 256 with (2 ^ 8). rewrite <- Z.pow_mul_r by lia. f_equal. lia. }
      replace (2 ^ (448 * Z.of_nat (S n))) with (2 ^ (448 * Z.of_nat n) * 2 ^ 448).
      2:{ rewrite <- Z.pow_add_r by lia. f_equal. lia. }
      rewrite <- Z.add_mod by discriminate.
      rewrite <- (Z.add_mod_idemp_r (le_val (firstn (56 * n) b))), Z.mul_mod_idemp_r, Z.add_mod_idemp_r by discriminate.
      f_equal. ring.
    + split; [ | lia ]. intros _. destruct n as [|n]; [ | apply D4; lia ].
      rewrite (D5 eq_refl). exact C2.
Qed.
Lemma decode_long_ok : forall b, bytes b -> Z.of_nat (length b) < 2 ^ 64 ->
  exists r, decode_long b = Some r /\ red r /\ v32 r = le_val b mod q448.
Proof.
  intros b Hb H64. unfold decode_long. cbv zeta.
  destruct (Z.eqb_spec (Z.of_nat (length b)) 0) as [E|E].
  - assert (b = []) by (destruct b; [ reflexivity | discriminate ]). subst b.
    exists create_zero_scalar. split; [ reflexivity | ]. split; [ exact red_zero | reflexivity ].
  - unfold SCALAR_SER_BYTES.
    (* n blocks, then the first (highest) block of 1..56 bytes *)
    assert (SZ : exists n : nat, (56 * n < length b <= 56 * n + 56)%nat /\
      (if Z.of_nat (length b) - Z.of_nat (length b) mod 56 =? Z.of_nat (length b)
       then Z.of_nat (length b) - Z.of_nat (length b) mod 56 - 56
       else Z.of_nat (length b) - Z.of_nat (length b) mod 56) = 56 * Z.of_nat n).
    { pose proof (Z.div_mod (Z.of_nat (length b)) 56 ltac:(lia)) as D.
      pose proof (Z.mod_pos_bound (Z.of_nat (length b)) 56 ltac:(lia)) as M.
      pose proof (Z.div_pos (Z.of_nat (length b)) 56 ltac:(lia) ltac:(lia)) as P.
      destruct (Z.eqb_spec (Z.of_nat (length b) - Z.of_nat (length b) mod 56) (Z.of_nat (length b))) as [Q|Q].
      - exists (Z.to_nat (Z.of_nat (length b) / 56 - 1)). lia.
      - exists (Z.to_nat (Z.of_nat (length b) / 56)). lia. }
    destruct SZ as (n & Hn & En). rewrite En.
    replace (Z.to_nat (56 * Z.of_nat n)) with (56 * n)%nat by lia.
    assert (Ls : length (skipn (56 * n) b) = (length b - 56 * n)%nat) by apply skipn_length.
    destruct (decode_short_ok (skipn (56 * n) b) [] (bytes_skipn _ _ Hb) ltac:(lia)) as (s & A1 & A2 & A3).
    rewrite app_nil_r, Ls in A1.
    replace (Z.of_nat (length b) - 56 * Z.of_nat n) with (Z.of_nat (length b - 56 * n)) by lia.
    rewrite A1. cbn [bind].
    destruct (Z.eqb_spec (Z.of_nat (length b)) 56) as [F|F].
    + destruct (smul_ok s SCALAR_ONE A2 red_one) as (r & K1 & K2 & K3).
      exists r. split; [ exact K1 | ]. split; [ exact K2 | ].
      rewrite K3, A3, v32_one, Z.mul_1_r. replace n with 0%nat by lia. reflexivity.
    + destruct (long_loop_ok n (length b) (firstn (56 * n) b) (skipn (56 * n) b) s)
        as (r & D1 & D2 & D3 & D4 & D5);
        [ lia | lia | apply bytes_firstn; exact Hb | apply firstn_length_le; lia | exact A2 | ].
      rewrite firstn_skipn in D1. exists r. split; [ exact D1 | ].
      assert (RR : red r).
      { destruct n as [|n]; [ | apply D4; lia ]. split; [ exact D2 | ].
        rewrite (D5 eq_refl), A3.
        pose proof (le_val_range _ (bytes_skipn (56 * 0) b Hb)) as R. rewrite Ls in R.
        assert (256 ^ Z.of_nat (length b - 56 * 0) <= 256 ^ 55) by (apply Z.pow_le_mono_r; lia).
        pose proof q448_bounds. assert (256 ^ 55 < 2 ^ 445) by reflexivity. lia. }
      split; [ exact RR | ]. rewrite <- (red_mod r RR), D3, A3.
      rewrite (le_val_split (56 * n) b) by lia. f_equal. f_equal. f_equal.
      change 256 with (2 ^ 8). rewrite <- Z.pow_mul_r by lia. f_equal. lia.
Qed.
