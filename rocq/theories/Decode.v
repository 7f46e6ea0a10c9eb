(* extended_point.rs: is_on_curve and eddsa_like_decode. *)
From Coq Require Import ZArith List Bool Lia Ring Field.
From Verif Require Import SpecField SpecBytes SpecScalar SpecCurve SpecDecode Base Arith Bytes Constants32 BigNumber ScalarModel
  Niels Errors ExtendedPoint.
From Verif Require Import LimbKara LimbMul LimbOps LimbOps2 LimbSer LimbDeser Field FieldOps ScalarProofs Edwards Isogeny PointOps PointMul.
Import ListNotations.
Open Scope Z_scope.
Open Scope F_scope.

Lemma low_zero_eq : forall x, low_zero x = low420 x.
Proof. reflexivity. Qed.
Lemma words28_eq : forall n z, words28 n z = digits28 n z.
Proof. induction n; intro z; cbn [words28 digits28]; f_equal; apply IHn. Qed.
Lemma range_chain_eq : forall ns ms c, range_chain c ns ms = range_carry c ns ms.
Proof. induction ns as [|n ns IH]; intros [|m ms] c; cbn [range_chain range_carry]; reflexivity || apply IH. Qed.
Lemma range_test_eq : forall y, range_test y = range_ok y.
Proof. intro y. unfold range_test, range_ok. rewrite range_chain_eq, words28_eq. reflexivity. Qed.

Local Notation t2l := tight_loose.
(* the curve test *)
Lemma is_on_curve_ok : forall p, tight_point p ->
  is_on_curve p = Some (low420 (F (px p) * F (py p) - F (pz p) * F (ExtendedPoint.pt p)) &&
    low420 (F (py p) * F (py p) - F (px p) * F (px p) -
            (F (pz p) * F (pz p) - mkF 39082 * (F (ExtendedPoint.pt p) * F (ExtendedPoint.pt p)))) &&
    negb (low420 (F (pz p)))).
Proof.
  intros p (Tx & Ty & Tz & Tt). unfold is_on_curve. cbv zeta.
  destruct (mul_F (px p) (py p) (t2l _ Tx) (t2l _ Ty)) as (A1 & A2).
  destruct (mul_F (pz p) (ExtendedPoint.pt p) (t2l _ Tz) (t2l _ Tt)) as (B1 & B2).
  rewrite (decaf_equal_F _ _ (t2l _ A1) B1), A2, B2, bind_Some. cbv beta.
  destruct (square_F (px p) (t2l _ Tx)) as (C1 & C2). destruct (square_F (py p) (t2l _ Ty)) as (D1 & D2).
  do_sub (t2l _ D1) C1 a Ea Ta Va.
  destruct (square_F (ExtendedPoint.pt p) (t2l _ Tt)) as (G1 & G2).
  destruct (mul_w_F (square (ExtendedPoint.pt p)) (1 - EDWARDS_D) (t2l _ G1) ltac:(unfold EDWARDS_D; lia)) as (c & Ec & Tc & Vc).
  rewrite Ec, bind_Some. cbv beta. destruct (square_F (pz p) (t2l _ Tz)) as (I1 & I2).
  do_sub (t2l _ I1) Tc b Eb Tb Vb.
  rewrite (decaf_equal_F _ _ (t2l _ Ta) Tb), bind_Some. cbv beta.
  rewrite (decaf_equal_F _ _ (t2l _ Tz) zero_tight), bind_Some. cbv beta.
  rewrite Va, Vb, C2, D2, Vc, G2, I2, F_zero. change (1 - EDWARDS_D)%Z with 39082%Z.
  replace (F (pz p) - 0) with (F (pz p)) by ring. f_equal.
  rewrite not_mask. destruct (low420 (F (px p) * F (py p) - _)), (low420 (_ - _ - (_ - _))), (low420 (F (pz p))); reflexivity.
Qed.

Lemma ecd_val : ecd = mkF (-39081).
Proof. Transparent ecd. reflexivity. Qed.
Opaque ecd.
(* square roots *)
Lemma fopp_odd : forall x, x <> 0 -> Z.odd (fval (- x)) = negb (Z.odd (fval x)).
Proof.
  intros x Hx. rewrite fval_fopp. pose proof (fval_range x) as R.
  assert (fval x <> 0%Z) by (intro E; apply Hx; apply fval_zero; exact E).
  rewrite <- (Z.mod_add _ 1) by discriminate. rewrite Z.mod_small by lia.
  rewrite Z.odd_add, Z.odd_opp. change (Z.odd (1 * p448)) with true. destruct (Z.odd (fval x)); reflexivity.
Qed.
Definition du (y : Fp) : Fp := 1 - y * y.
Definition dv (y : Fp) : Fp := 1 - ecd * (y * y).
Lemma dv_nz : forall y, dv y <> 0.
Proof.
  intros y E. apply ecd_nonsquare. unfold dv in E. apply (proj1 (fsub_zero _ _)) in E.
  assert (Ny : y <> 0) by (intros ->; apply fone_nz; rewrite E; ring).
  exists (finv y). apply (fmul_cancel (y * y)); [ apply fmul_nz; assumption | ].
  transitivity (finv y * y * (finv y * y)); [ ring | ]. rewrite (finv_l y Ny).
  transitivity 1; [ ring | ]. rewrite E. ring.
Qed.
Definition root0 (y : Fp) : Fp := fpow (du y * dv y) ISR_EXP * du y.
Definition droot (y : Fp) (s : bool) : Fp := if Bool.eqb (Z.odd (fval (root0 y))) s then root0 y else - root0 y.
Lemma root0_sq : forall y, root0 y * root0 y * dv y = du y \/ root0 y * root0 y * dv y = - du y.
Proof.
  intro y. pose proof (isr_square (du y * dv y)) as K. unfold root0.
  destruct (F_dec (du y * dv y) 0) as [E|NE].
  - apply fmul_zero in E. destruct E as [E|E]; [ | exfalso; exact (dv_nz y E) ]. left. rewrite E. ring.
  - set (r := fpow (du y * dv y) ISR_EXP) in *.
    assert (G : r * du y * (r * du y) * dv y = (r * r * (du y * dv y)) * du y) by ring.
    rewrite G, K. destruct (euler_pm _ NE) as [H|H]; rewrite H; [ left | right ]; ring.
Qed.
Lemma droot_sq : forall y s, droot y s * droot y s = root0 y * root0 y.
Proof. intros y s. unfold droot. destruct (Bool.eqb _ s); ring. Qed.
Lemma droot_candidate : forall y s, candidate y s (droot y s).
Proof.
  intros y s. split.
  - fold (dv y). fold (du y). rewrite droot_sq. apply root0_sq.
  - unfold droot. destruct (Bool.eqb (Z.odd (fval (root0 y))) s) eqn:E.
    + intros _. apply eqb_prop. exact E.
    + intro N. assert (root0 y <> 0) by (intro Z0; apply N; rewrite Z0; ring).
      rewrite fopp_odd by assumption. apply eqb_false_iff in E. destruct (Z.odd _), s; try reflexivity; congruence.
Qed.
Lemma candidate_unique : forall y s x x', candidate y s x -> candidate y s x' -> x = x'.
Proof.
  intros y s x x' (H1 & H2) (H1' & H2').
  fold (dv y) in H1, H1'. fold (du y) in H1, H1'. pose proof (dv_nz y) as NV.
  assert (K : x * x = x' * x' \/ x * x = - (x' * x')).
  { destruct H1 as [H1|H1], H1' as [H1'|H1'].
    - left. apply (fmul_cancel (dv y)); [ exact NV | ]. transitivity (x * x * dv y); [ ring | ]. rewrite H1, <- H1'. ring.
    - right. apply (fmul_cancel (dv y)); [ exact NV | ]. transitivity (x * x * dv y); [ ring | ].
      rewrite H1. transitivity (- (x' * x' * dv y)); [ rewrite H1'; ring | ring ].
    - right. apply (fmul_cancel (dv y)); [ exact NV | ]. transitivity (x * x * dv y); [ ring | ].
      rewrite H1. transitivity (- (x' * x' * dv y)); [ rewrite H1'; ring | ring ].
    - left. apply (fmul_cancel (dv y)); [ exact NV | ]. transitivity (x * x * dv y); [ ring | ]. rewrite H1, <- H1'. ring. }
  assert (K' : x = x' \/ x = - x').
  { destruct K as [K|K]; [ apply square_eq; exact K | ].
    destruct (sum_squares_zero x x') as (-> & ->); [ rewrite K; ring | left; reflexivity ]. }
  destruct K' as [K'|K']; [ exact K' | ].
  destruct (F_dec x' 0) as [E|NE]; [ rewrite K', E; ring | ]. exfalso.
  assert (NX : x <> 0) by (rewrite K'; intro C; apply fopp_zero in C; contradiction).
  specialize (H2 NX). specialize (H2' NE). rewrite K', fopp_odd, H2' in H2 by exact NE. destruct s; discriminate.
Qed.
Lemma curve_uv : forall x y, on_curve (x, y) <-> x * x * dv y = du y.
Proof.
  intros x y. unfold on_curve, dv, du. split; intro H.
  - apply fsub_zero. transitivity ((x * x + y * y) - (1 + ecd * (x * x * (y * y)))); [ ring | rewrite H; ring ].
  - apply fsub_zero. transitivity (x * x * (1 - ecd * (y * y)) - (1 - y * y)); [ ring | rewrite H; ring ].
Qed.
Lemma curve_candidate : forall x y s, on_curve (x, y) -> (x <> 0 -> Z.odd (fval x) = s) -> candidate y s x.
Proof. intros x y s H P. split; [ left; apply curve_uv; exact H | exact P ]. Qed.

(* the residue vanishes exactly on the curve *)
Lemma candidate_D : forall y s x, candidate y s x -> x * x + y * y <> 0.
Proof.
  intros y s x (H & _) E. destruct (sum_squares_zero x y E) as (-> & ->).
  destruct H as [H|H].
  - apply fone_nz. transitivity (1 - 0 * 0); [ ring | rewrite <- H; ring ].
  - apply fone_nz. transitivity (- - (1 - 0 * 0)); [ ring | rewrite <- H; ring ].
Qed.
Lemma residue_zero : forall y s x, candidate y s x -> (residue x y = 0 <-> on_curve (x, y)).
Proof.
  intros y s x H. pose proof (candidate_D y s x H) as ND. unfold residue, on_curve.
  set (D := x * x + y * y) in *. split; intro E.
  - apply fmul_zero in E. destruct E as [E|E].
    + exfalso. revert E. apply fmul_nz; [ apply mkF_nz; discriminate | apply fmul_nz; exact ND ].
    + apply (proj1 (fsub_zero _ _)) in E. rewrite <- E. ring.
  - rewrite E. ring.
Qed.
Lemma denominator_nz : forall x y, on_curve (x, y) -> denominator x y <> 0.
Proof. intros x y H. unfold denominator. apply fmul_nz; [ apply phi_t_nz; exact H | apply phi_w_nz; exact H ]. Qed.

(* the decoder up to the final multiplication by 1/4 *)
Definition inv4 : scalar := halve (halve SCALAR_ONE).
Definition accepts (src : list Z) (x : Fp) : bool :=
  enc_pad_ok src && range_test (enc_y src) && low_zero (residue x (mkF (enc_y src))) &&
  negb (low_zero (denominator x (mkF (enc_y src)))).
Definition raw_point (p : point) (x y : Fp) : Prop :=
  tight_point p /\
  F (px p) = (mkF 2 - (x * x + y * y)) * - (mkF 2 * x * y) /\
  F (py p) = (y * y - x * x) * (x * x + y * y) /\
  F (pz p) = denominator x y /\
  F (ExtendedPoint.pt p) = - (mkF 2 * x * y) * (x * x + y * y).
Lemma raw_point_ok : forall p x y, raw_point p x y -> on_curve (x, y) -> isP p (x, y).
Proof.
  intros p x y (T & HX & HY & HZ & HT) H. pose proof (phi_t_nz x y H) as Nt. pose proof (phi_w_nz x y H) as Nw.
  split; [ split; [ exact T | ] | ].
  - split; [ exact H | ]. split; [ rewrite HZ; apply denominator_nz; exact H | ]. exists 1. split; [ ring | ].
    Transparent phi. unfold phi, fst, snd. Opaque phi. rewrite HX, HY, HZ. unfold denominator. split; field; assumption.
  - rewrite HX, HY, HZ, HT. unfold denominator. ring.
Qed.
Lemma raw_residue : forall p x y, raw_point p x y ->
  F (px p) * F (py p) - F (pz p) * F (ExtendedPoint.pt p) = 0 /\
  F (py p) * F (py p) - F (px p) * F (px p) -
            (F (pz p) * F (pz p) - mkF 39082 * (F (ExtendedPoint.pt p) * F (ExtendedPoint.pt p))) = residue x y.
Proof.
  intros p x y (T & HX & HY & HZ & HT). rewrite HX, HY, HZ, HT. unfold denominator, residue.
  split; [ ring | ].
  rewrite ecd_val. ring.
Qed.
Lemma split57 : forall src, length src = 57%nat -> bytes src ->
  exists l b, src = l ++ [b] /\ length l = 56%nat /\ bytes l /\ byte b.
Proof.
  intros src HL HB. destruct (exists_last (l := src)) as (l & b & E); [ intros ->; discriminate | ].
  exists l, b. split; [ exact E | ]. rewrite E, app_length in HL. cbn [length] in HL. split; [ lia | ].
  unfold bytes in *. rewrite E in HB. apply Forall_app in HB. destruct HB as (HB1 & HB2).
  split; [ exact HB1 | inversion HB2; assumption ].
Qed.
Lemma enc_fields : forall l b, length l = 56%nat ->
  enc_y (l ++ [b]) = le_val l /\ enc_sign (l ++ [b]) = (128 <=? b)%Z /\ enc_pad_ok (l ++ [b]) = (b mod 128 =? 0)%Z.
Proof.
  intros l b H. unfold enc_y, enc_sign, enc_pad_ok.
  assert (N : nth 56 (l ++ [b]) 0%Z = b) by (rewrite app_nth2, H by lia; reflexivity).
  rewrite N. split; [ | split; reflexivity ]. f_equal.
  rewrite firstn_app, H. change (56 - 56)%nat with 0%nat. rewrite firstn_O, app_nil_r. apply firstn_all2. lia.
Qed.
Lemma byte_bits : forall b, byte b -> Z.land b 0x7f = (b mod 128)%Z /\ Z.land 0x80 b = if (128 <=? b)%Z then 128%Z else 0%Z.
Proof.
  assert (K : forallb (fun n => let b := Z.of_nat n in (Z.land b 0x7f =? b mod 128)%Z &&
    (Z.land 0x80 b =? if (128 <=? b)%Z then 128 else 0)%Z) (seq 0 256) = true) by reflexivity.
  intros b Hb. unfold byte in Hb. rewrite forallb_forall in K. specialize (K (Z.to_nat b)).
  rewrite in_seq in K. specialize (K ltac:(lia)). cbv zeta in K. rewrite Z2Nat.id in K by lia.
  apply andb_prop in K. destruct K as (K1 & K2). split; [ apply Z.eqb_eq; exact K1 | apply Z.eqb_eq; exact K2 ].
Qed.
Lemma decode_shape : forall src, length src = 57%nat -> bytes src ->
  let x := droot (mkF (enc_y src)) (enc_sign src) in
  exists p, raw_point p x (mkF (enc_y src)) /\
    eddsa_like_decode src =
    if accepts src x then r <- point_scalar_mul p inv4 ;; Some (Ok r) else Some (Err DecodeError).
Proof.
  intros src HL HB. cbv zeta. unfold accepts. rewrite range_test_eq. change low_zero with low420.
  unfold eddsa_like_decode. rewrite HL. change (negb (Z.of_nat 57 =? 57)) with false. cbv iota.
  destruct (split57 src HL HB) as (l & b & -> & Hl & Bl & Bb).
  destruct (enc_fields l b Hl) as (Ey & Es & Ep). rewrite Ey, Es, Ep.
  change FIELD_BYTES with (Z.of_nat 56). rewrite <- Hl. rewrite znth_app_r, bind_Some. cbv beta zeta.
  destruct (byte_bits b Bb) as (B1 & B4). assert (B2 : (Z.land 0x80 b =? 0)%Z = negb (128 <=? b)%Z) by (rewrite B4; destruct (128 <=? b)%Z; reflexivity). change ZERO_MASK with 0x80%Z.
  assert (B3 : (0 <= Z.land 0x80 b < 2 ^ 32)%Z) by (rewrite B4; destruct (128 <=? b)%Z; lia).
  rewrite (is_zero_mask_ok _ B3), B2, not_mask, negb_involutive, B1.
  rewrite zupd_app, bind_Some. cbv beta.
  rewrite is_zero_mask_ok by (pose proof (Z.mod_pos_bound b 128 ltac:(lia)); lia).
  destruct (dsa_like_deserialize_ok l [(b mod 128)%Z] Hl Bl) as (y & E1 & R1 & V1).
  rewrite E1, bind_Some. cbv beta iota.
  pose proof (r28_tight y R1) as Ty. assert (Fy : F y = mkF (le_val l)) by (unfold F; rewrite V1; reflexivity).
  set (Y := mkF (le_val l)) in *. set (s := (128 <=? b)%Z).
  destruct (square_F y (t2l _ Ty)) as (A1 & A2). set (x1 := square y) in *.
  do_sub (t2l _ one_tight) A1 z Ez Tz Vz.
  destruct (mul_signed_F x1 EDWARDS_D (t2l _ A1) ltac:(unfold EDWARDS_D; lia)) as (t1 & Et1 & Tt1 & Vt1). rewrite Et1, bind_Some. cbv beta.
  do_sub (t2l _ one_tight) Tt1 t2 Et2 Tt2 Vt2.
  destruct (mul_F z t2 (t2l _ Tz) (t2l _ Tt2)) as (M1 & M2).
  destruct (isr_pow (mul z t2) M1) as (t3 & Et3 & Tt3 & Vt3). rewrite Et3, bind_Some. cbv beta.
  destruct (mul_F t3 z (t2l _ Tt3) (t2l _ Tz)) as (N1 & N2).
  rewrite A2, Fy in *. rewrite F_one in *. change EDWARDS_D with (-39081)%Z in Vt1. rewrite <- ecd_val in Vt1.
  assert (Vz' : F z = du Y) by exact Vz. assert (Vt2' : F t2 = dv Y) by (rewrite Vt2, Vt1; reflexivity).
  rewrite M2, Vz', Vt2' in Vt3. rewrite Vt3, Vz' in N2. fold (root0 Y) in N2.
  rewrite (low_bit_F _ N1), N2, bind_Some. cbv beta.
  assert (EM : Z.lxor (not32 (mask (Z.odd (fval (root0 Y))))) (mask s) = mask (Bool.eqb (Z.odd (fval (root0 Y))) s)).
  { rewrite not_mask. destruct (Z.odd _), s; reflexivity. }
  rewrite EM. destruct (decaf_cond_negate_F (mul t3 z) (Bool.eqb (Z.odd (fval (root0 Y))) s) N1) as (x & Ex & Tx & Vx).
  rewrite Ex, bind_Some. cbv beta.
  assert (Vx' : F x = - droot Y s). { rewrite Vx, N2. unfold droot. destruct (Bool.eqb _ s); ring. }
  subst x1. clear - Tx Ty Fy Vx' Hl. set (X := droot Y s) in *.
  destruct (square_F x (t2l _ Tx)) as (C1 & C2). destruct (square_F y (t2l _ Ty)) as (D1 & D2).
  destruct (add_F (square x) (square y) (t2l _ C1) (t2l _ D1)) as (S1 & S2).
  destruct (add_F y x (t2l _ Ty) (t2l _ Tx)) as (U1 & U2). destruct (square_F (add y x) (t2l _ U1)) as (W1 & W2).
  destruct (sub_F _ _ (t2l _ W1) S1) as (b1 & Eb1 & Tb1 & Vb1). rewrite Eb1, bind_Some. cbv beta.
  destruct (sub_F _ _ (t2l _ D1) C1) as (t4 & Et4 & Tt4 & Vt4). rewrite Et4, bind_Some. cbv beta.
  destruct (square_F BIG_ONE (t2l _ one_tight)) as (O1 & O2).
  destruct (add_F (square BIG_ONE) (square BIG_ONE) (t2l _ O1) (t2l _ O1)) as (Z1 & Z2).
  destruct (sub_F _ _ (t2l _ Z1) S1) as (a & Ea & Ta & Va). rewrite Ea, bind_Some. cbv beta.
  destruct (mul_F a b1 (t2l _ Ta) (t2l _ Tb1)) as (P1 & P2). destruct (mul_F t4 a (t2l _ Tt4) (t2l _ Ta)) as (Q1 & Q2).
  destruct (mul_F t4 (add (square x) (square y)) (t2l _ Tt4) (t2l _ S1)) as (R1 & R2).
  destruct (mul_F b1 (add (square x) (square y)) (t2l _ Tb1) (t2l _ S1)) as (K1 & K2).
  set (pp := MkPoint (mul a b1) (mul t4 (add (square x) (square y))) (mul t4 a) (mul b1 (add (square x) (square y)))).
  rewrite C2, D2, Vx', Fy in S2. rewrite U2, Fy, Vx' in W2. rewrite W2, S2 in Vb1. rewrite D2, C2, Fy, Vx' in Vt4.
  rewrite O2, F_one in Z2. rewrite Z2, S2 in Va. rewrite Va, Vb1 in P2. rewrite Vt4, Va in Q2. rewrite Vt4, S2 in R2. rewrite Vb1, S2 in K2.
  assert (RP : raw_point pp X Y).
  { unfold raw_point, pp, tight_point, denominator. cbn [px py pz ExtendedPoint.pt].
    split; [ auto | ]. rewrite P2, Q2, R2, K2. repeat split; ring. }
  exists pp. split; [ exact RP | ].
  destruct (raw_residue _ _ _ RP) as (G1 & G2).
  rewrite is_on_curve_ok by (exact (proj1 RP)). rewrite bind_Some. cbv beta. rewrite G1, G2, low420_zero.
  destruct RP as (_ & _ & _ & -> & _). fold inv4.
  destruct (b mod 128 =? 0)%Z, (range_ok (le_val l)), (low420 (residue X Y)), (low420 (denominator X Y)); reflexivity.
Qed.
