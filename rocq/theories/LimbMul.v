(* Value and bounds of karatsuba_mul and karatsuba_square. *)
From Coq Require Import ZArith List Bool Lia.
From Verif Require Import SpecField Base Arith Karatsuba32 KaratsubaSquare32 LimbKara.
Open Scope Z_scope.

(* value of a limb vector, least significant limb first, radix r *)
Definition evr (r : Z) (a : bn) : Z :=
  let '(BN a0 a1 a2 a3 a4 a5 a6 a7 a8 a9 a10 a11 a12 a13 a14 a15) := a in
  a0 + r * (a1 + r * (a2 + r * (a3 + r * (a4 + r * (a5 + r * (a6 + r * (a7 + r * (a8 + r * (a9 + r * (a10 + r * (a11 + r * (a12 + r * (a13 + r * (a14 + r * (a15))))))))))))))).
Definition ev (a : bn) : Z := evr (2 ^ 28) a.


Lemma carry_chain_value : forall s0 s1 s2 s3 s4 s5 s6 s7 t0 t1 t2 t3 t4 t5 t6 t7, exists k,
  ev (carry_chain s0 s1 s2 s3 s4 s5 s6 s7 t0 t1 t2 t3 t4 t5 t6 t7) =
  evr (2 ^ 28) (BN s0 s1 s2 s3 s4 s5 s6 s7 t0 t1 t2 t3 t4 t5 t6 t7) - p448 * k.
Proof.
  intros. unfold carry_chain. cbv zeta.
  rewrite ?(Z.mod_eq (s0)) by discriminate. remember ((s0) / 2 ^ 28) as qu0 eqn:Eu0. clear Eu0.
  rewrite ?(Z.mod_eq (t0)) by discriminate. remember ((t0) / 2 ^ 28) as qw0 eqn:Ew0. clear Ew0.
  rewrite ?(Z.mod_eq (s1 + qu0)) by discriminate. remember ((s1 + qu0) / 2 ^ 28) as qu1 eqn:Eu1. clear Eu1.
  rewrite ?(Z.mod_eq (t1 + qw0)) by discriminate. remember ((t1 + qw0) / 2 ^ 28) as qw1 eqn:Ew1. clear Ew1.
  rewrite ?(Z.mod_eq (s2 + qu1)) by discriminate. remember ((s2 + qu1) / 2 ^ 28) as qu2 eqn:Eu2. clear Eu2.
  rewrite ?(Z.mod_eq (t2 + qw1)) by discriminate. remember ((t2 + qw1) / 2 ^ 28) as qw2 eqn:Ew2. clear Ew2.
  rewrite ?(Z.mod_eq (s3 + qu2)) by discriminate. remember ((s3 + qu2) / 2 ^ 28) as qu3 eqn:Eu3. clear Eu3.
  rewrite ?(Z.mod_eq (t3 + qw2)) by discriminate. remember ((t3 + qw2) / 2 ^ 28) as qw3 eqn:Ew3. clear Ew3.
  rewrite ?(Z.mod_eq (s4 + qu3)) by discriminate. remember ((s4 + qu3) / 2 ^ 28) as qu4 eqn:Eu4. clear Eu4.
  rewrite ?(Z.mod_eq (t4 + qw3)) by discriminate. remember ((t4 + qw3) / 2 ^ 28) as qw4 eqn:Ew4. clear Ew4.
  rewrite ?(Z.mod_eq (s5 + qu4)) by discriminate. remember ((s5 + qu4) / 2 ^ 28) as qu5 eqn:Eu5. clear Eu5.
  rewrite ?(Z.mod_eq (t5 + qw4)) by discriminate. remember ((t5 + qw4) / 2 ^ 28) as qw5 eqn:Ew5. clear Ew5.
  rewrite ?(Z.mod_eq (s6 + qu5)) by discriminate. remember ((s6 + qu5) / 2 ^ 28) as qu6 eqn:Eu6. clear Eu6.
  rewrite ?(Z.mod_eq (t6 + qw5)) by discriminate. remember ((t6 + qw5) / 2 ^ 28) as qw6 eqn:Ew6. clear Ew6.
  rewrite ?(Z.mod_eq (s7 + qu6)) by discriminate. remember ((s7 + qu6) / 2 ^ 28) as qu7 eqn:Eu7. clear Eu7.
  rewrite ?(Z.mod_eq (t7 + qw6)) by discriminate. remember ((t7 + qw6) / 2 ^ 28) as qw7 eqn:Ew7. clear Ew7.
  match goal with |- context [ ?x mod 2 ^ 28 ] => rewrite ?(Z.mod_eq x) by discriminate end.
  match goal with |- context [ ?x mod 2 ^ 28 ] => rewrite ?(Z.mod_eq x) by discriminate end.
  match goal with |- context [ ?x / 2 ^ 28 ] => remember (x / 2 ^ 28) as qz0 eqn:Ez0; clear Ez0 end.
  match goal with |- context [ ?x / 2 ^ 28 ] => remember (x / 2 ^ 28) as qz1 eqn:Ez1; clear Ez1 end.
  exists qw7. unfold ev, evr.
  replace p448 with ((2 ^ 28) ^ 16 - (2 ^ 28) ^ 8 - 1) by reflexivity.
  remember (2 ^ 28) as r eqn:Er. clear Er. ring.
Qed.

Lemma div28_bd : forall x b, 0 <= x <= b -> 0 <= x / 2 ^ 28 <= b / 2 ^ 28.
Proof.
  intros x b H. split; [ apply Z.div_pos; lia | apply Z.div_le_mono; lia ].
Qed.
Lemma mod28_bd : forall x, 0 <= x mod 2 ^ 28 <= 2 ^ 28 - 1.
Proof. intro x. pose proof (Z.mod_pos_bound x (2 ^ 28) eq_refl). lia. Qed.

Lemma carry_chain_bd : forall s0 s1 s2 s3 s4 s5 s6 s7 t0 t1 t2 t3 t4 t5 t6 t7,
  0 <= s0 <= 38 * (LOOSE * LOOSE) ->
  0 <= s1 <= 38 * (LOOSE * LOOSE) ->
  0 <= s2 <= 38 * (LOOSE * LOOSE) ->
  0 <= s3 <= 38 * (LOOSE * LOOSE) ->
  0 <= s4 <= 38 * (LOOSE * LOOSE) ->
  0 <= s5 <= 38 * (LOOSE * LOOSE) ->
  0 <= s6 <= 38 * (LOOSE * LOOSE) ->
  0 <= s7 <= 38 * (LOOSE * LOOSE) ->
  0 <= t0 <= 38 * (LOOSE * LOOSE) ->
  0 <= t1 <= 38 * (LOOSE * LOOSE) ->
  0 <= t2 <= 38 * (LOOSE * LOOSE) ->
  0 <= t3 <= 38 * (LOOSE * LOOSE) ->
  0 <= t4 <= 38 * (LOOSE * LOOSE) ->
  0 <= t5 <= 38 * (LOOSE * LOOSE) ->
  0 <= t6 <= 38 * (LOOSE * LOOSE) ->
  0 <= t7 <= 38 * (LOOSE * LOOSE) ->
  bn_le TIGHT (carry_chain s0 s1 s2 s3 s4 s5 s6 s7 t0 t1 t2 t3 t4 t5 t6 t7).
Proof.
  intros s0 s1 s2 s3 s4 s5 s6 s7 t0 t1 t2 t3 t4 t5 t6 t7. set (M := 38 * (LOOSE * LOOSE)). intros.
  unfold carry_chain. cbv zeta.
  assert (C : forall x c, 0 <= x <= M -> 0 <= c <= 2 ^ 36 -> 0 <= (x + c) / 2 ^ 28 <= 2 ^ 36).
  { intros x c Hx Hc. apply carry_bd. unfold M, LOOSE in Hx. lia. }
  assert (C0 : forall x, 0 <= x <= M -> 0 <= x / 2 ^ 28 <= 2 ^ 36).
  { intros x Hx. apply carry_bd. unfold M, LOOSE in Hx. lia. }
  assert (Bu0 : 0 <= (s0) / 2 ^ 28 <= 2 ^ 36) by (apply C0; assumption).
  remember ((s0) / 2 ^ 28) as qu0 eqn:Eu0. clear Eu0.
  assert (Bw0 : 0 <= (t0) / 2 ^ 28 <= 2 ^ 36) by (apply C0; assumption).
  remember ((t0) / 2 ^ 28) as qw0 eqn:Ew0. clear Ew0.
  assert (Bu1 : 0 <= (s1 + qu0) / 2 ^ 28 <= 2 ^ 36) by (apply C; assumption).
  remember ((s1 + qu0) / 2 ^ 28) as qu1 eqn:Eu1. clear Eu1.
  assert (Bw1 : 0 <= (t1 + qw0) / 2 ^ 28 <= 2 ^ 36) by (apply C; assumption).
  remember ((t1 + qw0) / 2 ^ 28) as qw1 eqn:Ew1. clear Ew1.
  assert (Bu2 : 0 <= (s2 + qu1) / 2 ^ 28 <= 2 ^ 36) by (apply C; assumption).
  remember ((s2 + qu1) / 2 ^ 28) as qu2 eqn:Eu2. clear Eu2.
  assert (Bw2 : 0 <= (t2 + qw1) / 2 ^ 28 <= 2 ^ 36) by (apply C; assumption).
  remember ((t2 + qw1) / 2 ^ 28) as qw2 eqn:Ew2. clear Ew2.
  assert (Bu3 : 0 <= (s3 + qu2) / 2 ^ 28 <= 2 ^ 36) by (apply C; assumption).
  remember ((s3 + qu2) / 2 ^ 28) as qu3 eqn:Eu3. clear Eu3.
  assert (Bw3 : 0 <= (t3 + qw2) / 2 ^ 28 <= 2 ^ 36) by (apply C; assumption).
  remember ((t3 + qw2) / 2 ^ 28) as qw3 eqn:Ew3. clear Ew3.
  assert (Bu4 : 0 <= (s4 + qu3) / 2 ^ 28 <= 2 ^ 36) by (apply C; assumption).
  remember ((s4 + qu3) / 2 ^ 28) as qu4 eqn:Eu4. clear Eu4.
  assert (Bw4 : 0 <= (t4 + qw3) / 2 ^ 28 <= 2 ^ 36) by (apply C; assumption).
  remember ((t4 + qw3) / 2 ^ 28) as qw4 eqn:Ew4. clear Ew4.
  assert (Bu5 : 0 <= (s5 + qu4) / 2 ^ 28 <= 2 ^ 36) by (apply C; assumption).
  remember ((s5 + qu4) / 2 ^ 28) as qu5 eqn:Eu5. clear Eu5.
  assert (Bw5 : 0 <= (t5 + qw4) / 2 ^ 28 <= 2 ^ 36) by (apply C; assumption).
  remember ((t5 + qw4) / 2 ^ 28) as qw5 eqn:Ew5. clear Ew5.
  assert (Bu6 : 0 <= (s6 + qu5) / 2 ^ 28 <= 2 ^ 36) by (apply C; assumption).
  remember ((s6 + qu5) / 2 ^ 28) as qu6 eqn:Eu6. clear Eu6.
  assert (Bw6 : 0 <= (t6 + qw5) / 2 ^ 28 <= 2 ^ 36) by (apply C; assumption).
  remember ((t6 + qw5) / 2 ^ 28) as qw6 eqn:Ew6. clear Ew6.
  assert (Bu7 : 0 <= (s7 + qu6) / 2 ^ 28 <= 2 ^ 36) by (apply C; assumption).
  remember ((s7 + qu6) / 2 ^ 28) as qu7 eqn:Eu7. clear Eu7.
  assert (Bw7 : 0 <= (t7 + qw6) / 2 ^ 28 <= 2 ^ 36) by (apply C; assumption).
  remember ((t7 + qw6) / 2 ^ 28) as qw7 eqn:Ew7. clear Ew7.
  assert (D : forall x y z, 0 <= x <= 2 ^ 36 -> 0 <= y <= 2 ^ 36 -> 0 <= (x + y + z mod 2 ^ 28) / 2 ^ 28 <= 2 ^ 10).
  { intros x y z Hx Hy. pose proof (mod28_bd z). split; [ apply Z.div_pos; lia | apply Z.div_le_upper_bound; lia ]. }
  assert (D1 : forall x z, 0 <= x <= 2 ^ 36 -> 0 <= (x + z mod 2 ^ 28) / 2 ^ 28 <= 2 ^ 10).
  { intros x z Hx. pose proof (mod28_bd z). split; [ apply Z.div_pos; lia | apply Z.div_le_upper_bound; lia ]. }
  pose proof (D qu7 qw7 t0 Bu7 Bw7) as F0. pose proof (D1 qw7 s0 Bw7) as F1.
  assert (G : forall x, 0 <= x mod 2 ^ 28 <= TIGHT) by (intro x; pose proof (mod28_bd x); unfold TIGHT; lia).
  assert (G1 : forall x c, 0 <= c <= 2 ^ 10 -> 0 <= x mod 2 ^ 28 + c <= TIGHT)
    by (intros x c Hc; pose proof (mod28_bd x); unfold TIGHT; lia).
  unfold bn_le. repeat split; try apply G; try (apply G1; assumption).
Qed.

Lemma cols_value : forall r a0 a1 a2 a3 a4 a5 a6 a7 a8 a9 a10 a11 a12 a13 a14 a15 b0 b1 b2 b3 b4 b5 b6 b7 b8 b9 b10 b11 b12 b13 b14 b15, exists k,
  evr r (BN
    (col0_0 a0 a1 a2 a3 a4 a5 a6 a7 a8 a9 a10 a11 a12 a13 a14 a15 b0 b1 b2 b3 b4 b5 b6 b7 b8 b9 b10 b11 b12 b13 b14 b15)
    (col0_1 a0 a1 a2 a3 a4 a5 a6 a7 a8 a9 a10 a11 a12 a13 a14 a15 b0 b1 b2 b3 b4 b5 b6 b7 b8 b9 b10 b11 b12 b13 b14 b15)
    (col0_2 a0 a1 a2 a3 a4 a5 a6 a7 a8 a9 a10 a11 a12 a13 a14 a15 b0 b1 b2 b3 b4 b5 b6 b7 b8 b9 b10 b11 b12 b13 b14 b15)
    (col0_3 a0 a1 a2 a3 a4 a5 a6 a7 a8 a9 a10 a11 a12 a13 a14 a15 b0 b1 b2 b3 b4 b5 b6 b7 b8 b9 b10 b11 b12 b13 b14 b15)
    (col0_4 a0 a1 a2 a3 a4 a5 a6 a7 a8 a9 a10 a11 a12 a13 a14 a15 b0 b1 b2 b3 b4 b5 b6 b7 b8 b9 b10 b11 b12 b13 b14 b15)
    (col0_5 a0 a1 a2 a3 a4 a5 a6 a7 a8 a9 a10 a11 a12 a13 a14 a15 b0 b1 b2 b3 b4 b5 b6 b7 b8 b9 b10 b11 b12 b13 b14 b15)
    (col0_6 a0 a1 a2 a3 a4 a5 a6 a7 a8 a9 a10 a11 a12 a13 a14 a15 b0 b1 b2 b3 b4 b5 b6 b7 b8 b9 b10 b11 b12 b13 b14 b15)
    (col0_7 a0 a1 a2 a3 a4 a5 a6 a7 a8 a9 a10 a11 a12 a13 a14 a15 b0 b1 b2 b3 b4 b5 b6 b7 b8 b9 b10 b11 b12 b13 b14 b15)
    (col1_0 a0 a1 a2 a3 a4 a5 a6 a7 a8 a9 a10 a11 a12 a13 a14 a15 b0 b1 b2 b3 b4 b5 b6 b7 b8 b9 b10 b11 b12 b13 b14 b15)
    (col1_1 a0 a1 a2 a3 a4 a5 a6 a7 a8 a9 a10 a11 a12 a13 a14 a15 b0 b1 b2 b3 b4 b5 b6 b7 b8 b9 b10 b11 b12 b13 b14 b15)
    (col1_2 a0 a1 a2 a3 a4 a5 a6 a7 a8 a9 a10 a11 a12 a13 a14 a15 b0 b1 b2 b3 b4 b5 b6 b7 b8 b9 b10 b11 b12 b13 b14 b15)
    (col1_3 a0 a1 a2 a3 a4 a5 a6 a7 a8 a9 a10 a11 a12 a13 a14 a15 b0 b1 b2 b3 b4 b5 b6 b7 b8 b9 b10 b11 b12 b13 b14 b15)
    (col1_4 a0 a1 a2 a3 a4 a5 a6 a7 a8 a9 a10 a11 a12 a13 a14 a15 b0 b1 b2 b3 b4 b5 b6 b7 b8 b9 b10 b11 b12 b13 b14 b15)
    (col1_5 a0 a1 a2 a3 a4 a5 a6 a7 a8 a9 a10 a11 a12 a13 a14 a15 b0 b1 b2 b3 b4 b5 b6 b7 b8 b9 b10 b11 b12 b13 b14 b15)
    (col1_6 a0 a1 a2 a3 a4 a5 a6 a7 a8 a9 a10 a11 a12 a13 a14 a15 b0 b1 b2 b3 b4 b5 b6 b7 b8 b9 b10 b11 b12 b13 b14 b15)
    (col1_7 a0 a1 a2 a3 a4 a5 a6 a7 a8 a9 a10 a11 a12 a13 a14 a15 b0 b1 b2 b3 b4 b5 b6 b7 b8 b9 b10 b11 b12 b13 b14 b15)) =
  evr r (BN a0 a1 a2 a3 a4 a5 a6 a7 a8 a9 a10 a11 a12 a13 a14 a15) * evr r (BN b0 b1 b2 b3 b4 b5 b6 b7 b8 b9 b10 b11 b12 b13 b14 b15) - (r ^ 16 - r ^ 8 - 1) * k.
Proof.
  intros. eexists ?[k].
  rewrite col0_0_eq, col0_1_eq, col0_2_eq, col0_3_eq, col0_4_eq, col0_5_eq, col0_6_eq, col0_7_eq. rewrite col1_0_eq, col1_1_eq, col1_2_eq, col1_3_eq, col1_4_eq, col1_5_eq, col1_6_eq, col1_7_eq.
  unfold evr.
  instantiate (k := (a1*b15 + a2*b14 + a3*b13 + a4*b12 + a5*b11 + a6*b10 + a7*b9 + a8*b8 + a9*b7 + a10*b6 + a11*b5 + a12*b4 + a13*b3 + a14*b2 + a15*b1) + r * ((a2*b15 + a3*b14 + a4*b13 + a5*b12 + a6*b11 + a7*b10 + a8*b9 + a9*b8 + a10*b7 + a11*b6 + a12*b5 + a13*b4 + a14*b3 + a15*b2) + r * ((a3*b15 + a4*b14 + a5*b13 + a6*b12 + a7*b11 + a8*b10 + a9*b9 + a10*b8 + a11*b7 + a12*b6 + a13*b5 + a14*b4 + a15*b3) + r * ((a4*b15 + a5*b14 + a6*b13 + a7*b12 + a8*b11 + a9*b10 + a10*b9 + a11*b8 + a12*b7 + a13*b6 + a14*b5 + a15*b4) + r * ((a5*b15 + a6*b14 + a7*b13 + a8*b12 + a9*b11 + a10*b10 + a11*b9 + a12*b8 + a13*b7 + a14*b6 + a15*b5) + r * ((a6*b15 + a7*b14 + a8*b13 + a9*b12 + a10*b11 + a11*b10 + a12*b9 + a13*b8 + a14*b7 + a15*b6) + r * ((a7*b15 + a8*b14 + a9*b13 + a10*b12 + a11*b11 + a12*b10 + a13*b9 + a14*b8 + a15*b7) + r * ((a8*b15 + a9*b14 + a10*b13 + a11*b12 + a12*b11 + a13*b10 + a14*b9 + a15*b8) + r * ((a9*b15 + a10*b14 + a11*b13 + a12*b12 + a13*b11 + a14*b10 + a15*b9) + r * ((a10*b15 + a11*b14 + a12*b13 + a13*b12 + a14*b11 + a15*b10) + r * ((a11*b15 + a12*b14 + a13*b13 + a14*b12 + a15*b11) + r * ((a12*b15 + a13*b14 + a14*b13 + a15*b12) + r * ((a13*b15 + a14*b14 + a15*b13) + r * ((a14*b15 + a15*b14) + r * ((a15*b15))))))))))))))) + (a9*b15 + a10*b14 + a11*b13 + a12*b12 + a13*b11 + a14*b10 + a15*b9) + r * ((a10*b15 + a11*b14 + a12*b13 + a13*b12 + a14*b11 + a15*b10) + r * ((a11*b15 + a12*b14 + a13*b13 + a14*b12 + a15*b11) + r * ((a12*b15 + a13*b14 + a14*b13 + a15*b12) + r * ((a13*b15 + a14*b14 + a15*b13) + r * ((a14*b15 + a15*b14) + r * ((a15*b15)))))))).
  ring.
Qed.

Lemma karatsuba_mul_spec : forall a b, bn_le LOOSE a -> bn_le LOOSE b ->
  bn_le TIGHT (karatsuba_mul a b) /\ exists k, ev (karatsuba_mul a b) = ev a * ev b - p448 * k.
Proof.
  intros [a0 a1 a2 a3 a4 a5 a6 a7 a8 a9 a10 a11 a12 a13 a14 a15] [b0 b1 b2 b3 b4 b5 b6 b7 b8 b9 b10 b11 b12 b13 b14 b15] Ha Hb.
  rewrite karatsuba_mul_exact by assumption. split.
  - apply carry_chain_bd;
    [ exact (col0_0_bd _ _ _ _ _ _ _ _ _ _ _ _ _ _ _ _ _ _ _ _ _ _ _ _ _ _ _ _ _ _ _ _ Ha Hb) | exact (col0_1_bd _ _ _ _ _ _ _ _ _ _ _ _ _ _ _ _ _ _ _ _ _ _ _ _ _ _ _ _ _ _ _ _ Ha Hb) | exact (col0_2_bd _ _ _ _ _ _ _ _ _ _ _ _ _ _ _ _ _ _ _ _ _ _ _ _ _ _ _ _ _ _ _ _ Ha Hb) | exact (col0_3_bd _ _ _ _ _ _ _ _ _ _ _ _ _ _ _ _ _ _ _ _ _ _ _ _ _ _ _ _ _ _ _ _ Ha Hb) | exact (col0_4_bd _ _ _ _ _ _ _ _ _ _ _ _ _ _ _ _ _ _ _ _ _ _ _ _ _ _ _ _ _ _ _ _ Ha Hb) | exact (col0_5_bd _ _ _ _ _ _ _ _ _ _ _ _ _ _ _ _ _ _ _ _ _ _ _ _ _ _ _ _ _ _ _ _ Ha Hb) | exact (col0_6_bd _ _ _ _ _ _ _ _ _ _ _ _ _ _ _ _ _ _ _ _ _ _ _ _ _ _ _ _ _ _ _ _ Ha Hb) | exact (col0_7_bd _ _ _ _ _ _ _ _ _ _ _ _ _ _ _ _ _ _ _ _ _ _ _ _ _ _ _ _ _ _ _ _ Ha Hb) | exact (col1_0_bd _ _ _ _ _ _ _ _ _ _ _ _ _ _ _ _ _ _ _ _ _ _ _ _ _ _ _ _ _ _ _ _ Ha Hb) | exact (col1_1_bd _ _ _ _ _ _ _ _ _ _ _ _ _ _ _ _ _ _ _ _ _ _ _ _ _ _ _ _ _ _ _ _ Ha Hb) | exact (col1_2_bd _ _ _ _ _ _ _ _ _ _ _ _ _ _ _ _ _ _ _ _ _ _ _ _ _ _ _ _ _ _ _ _ Ha Hb) | exact (col1_3_bd _ _ _ _ _ _ _ _ _ _ _ _ _ _ _ _ _ _ _ _ _ _ _ _ _ _ _ _ _ _ _ _ Ha Hb) | exact (col1_4_bd _ _ _ _ _ _ _ _ _ _ _ _ _ _ _ _ _ _ _ _ _ _ _ _ _ _ _ _ _ _ _ _ Ha Hb) | exact (col1_5_bd _ _ _ _ _ _ _ _ _ _ _ _ _ _ _ _ _ _ _ _ _ _ _ _ _ _ _ _ _ _ _ _ Ha Hb) | exact (col1_6_bd _ _ _ _ _ _ _ _ _ _ _ _ _ _ _ _ _ _ _ _ _ _ _ _ _ _ _ _ _ _ _ _ Ha Hb) | exact (col1_7_bd _ _ _ _ _ _ _ _ _ _ _ _ _ _ _ _ _ _ _ _ _ _ _ _ _ _ _ _ _ _ _ _ Ha Hb) ].
  - destruct (carry_chain_value
    (col0_0 a0 a1 a2 a3 a4 a5 a6 a7 a8 a9 a10 a11 a12 a13 a14 a15 b0 b1 b2 b3 b4 b5 b6 b7 b8 b9 b10 b11 b12 b13 b14 b15)
    (col0_1 a0 a1 a2 a3 a4 a5 a6 a7 a8 a9 a10 a11 a12 a13 a14 a15 b0 b1 b2 b3 b4 b5 b6 b7 b8 b9 b10 b11 b12 b13 b14 b15)
    (col0_2 a0 a1 a2 a3 a4 a5 a6 a7 a8 a9 a10 a11 a12 a13 a14 a15 b0 b1 b2 b3 b4 b5 b6 b7 b8 b9 b10 b11 b12 b13 b14 b15)
    (col0_3 a0 a1 a2 a3 a4 a5 a6 a7 a8 a9 a10 a11 a12 a13 a14 a15 b0 b1 b2 b3 b4 b5 b6 b7 b8 b9 b10 b11 b12 b13 b14 b15)
    (col0_4 a0 a1 a2 a3 a4 a5 a6 a7 a8 a9 a10 a11 a12 a13 a14 a15 b0 b1 b2 b3 b4 b5 b6 b7 b8 b9 b10 b11 b12 b13 b14 b15)
    (col0_5 a0 a1 a2 a3 a4 a5 a6 a7 a8 a9 a10 a11 a12 a13 a14 a15 b0 b1 b2 b3 b4 b5 b6 b7 b8 b9 b10 b11 b12 b13 b14 b15)
    (col0_6 a0 a1 a2 a3 a4 a5 a6 a7 a8 a9 a10 a11 a12 a13 a14 a15 b0 b1 b2 b3 b4 b5 b6 b7 b8 b9 b10 b11 b12 b13 b14 b15)
    (col0_7 a0 a1 a2 a3 a4 a5 a6 a7 a8 a9 a10 a11 a12 a13 a14 a15 b0 b1 b2 b3 b4 b5 b6 b7 b8 b9 b10 b11 b12 b13 b14 b15)
    (col1_0 a0 a1 a2 a3 a4 a5 a6 a7 a8 a9 a10 a11 a12 a13 a14 a15 b0 b1 b2 b3 b4 b5 b6 b7 b8 b9 b10 b11 b12 b13 b14 b15)
    (col1_1 a0 a1 a2 a3 a4 a5 a6 a7 a8 a9 a10 a11 a12 a13 a14 a15 b0 b1 b2 b3 b4 b5 b6 b7 b8 b9 b10 b11 b12 b13 b14 b15)
    (col1_2 a0 a1 a2 a3 a4 a5 a6 a7 a8 a9 a10 a11 a12 a13 a14 a15 b0 b1 b2 b3 b4 b5 b6 b7 b8 b9 b10 b11 b12 b13 b14 b15)
    (col1_3 a0 a1 a2 a3 a4 a5 a6 a7 a8 a9 a10 a11 a12 a13 a14 a15 b0 b1 b2 b3 b4 b5 b6 b7 b8 b9 b10 b11 b12 b13 b14 b15)
    (col1_4 a0 a1 a2 a3 a4 a5 a6 a7 a8 a9 a10 a11 a12 a13 a14 a15 b0 b1 b2 b3 b4 b5 b6 b7 b8 b9 b10 b11 b12 b13 b14 b15)
    (col1_5 a0 a1 a2 a3 a4 a5 a6 a7 a8 a9 a10 a11 a12 a13 a14 a15 b0 b1 b2 b3 b4 b5 b6 b7 b8 b9 b10 b11 b12 b13 b14 b15)
    (col1_6 a0 a1 a2 a3 a4 a5 a6 a7 a8 a9 a10 a11 a12 a13 a14 a15 b0 b1 b2 b3 b4 b5 b6 b7 b8 b9 b10 b11 b12 b13 b14 b15)
    (col1_7 a0 a1 a2 a3 a4 a5 a6 a7 a8 a9 a10 a11 a12 a13 a14 a15 b0 b1 b2 b3 b4 b5 b6 b7 b8 b9 b10 b11 b12 b13 b14 b15)) as (k & ->).
    destruct (cols_value (2 ^ 28) a0 a1 a2 a3 a4 a5 a6 a7 a8 a9 a10 a11 a12 a13 a14 a15 b0 b1 b2 b3 b4 b5 b6 b7 b8 b9 b10 b11 b12 b13 b14 b15) as (k2 & ->).
    exists (k2 + k). unfold ev. generalize (evr (2 ^ 28) (BN a0 a1 a2 a3 a4 a5 a6 a7 a8 a9 a10 a11 a12 a13 a14 a15)). intro x. generalize (evr (2 ^ 28) (BN b0 b1 b2 b3 b4 b5 b6 b7 b8 b9 b10 b11 b12 b13 b14 b15)). intro y.
    change p448 with ((2 ^ 28) ^ 16 - (2 ^ 28) ^ 8 - 1). ring.
Qed.

Lemma karatsuba_square_spec : forall a, bn_le LOOSE a -> 
  bn_le TIGHT (karatsuba_square a) /\ exists k, ev (karatsuba_square a) = ev a * ev a - p448 * k.
Proof.
  intros [a0 a1 a2 a3 a4 a5 a6 a7 a8 a9 a10 a11 a12 a13 a14 a15] Ha.
  rewrite karatsuba_square_exact by assumption. split.
  - apply carry_chain_bd;
    [ exact (col0_0_bd _ _ _ _ _ _ _ _ _ _ _ _ _ _ _ _ _ _ _ _ _ _ _ _ _ _ _ _ _ _ _ _ Ha Ha) | exact (col0_1_bd _ _ _ _ _ _ _ _ _ _ _ _ _ _ _ _ _ _ _ _ _ _ _ _ _ _ _ _ _ _ _ _ Ha Ha) | exact (col0_2_bd _ _ _ _ _ _ _ _ _ _ _ _ _ _ _ _ _ _ _ _ _ _ _ _ _ _ _ _ _ _ _ _ Ha Ha) | exact (col0_3_bd _ _ _ _ _ _ _ _ _ _ _ _ _ _ _ _ _ _ _ _ _ _ _ _ _ _ _ _ _ _ _ _ Ha Ha) | exact (col0_4_bd _ _ _ _ _ _ _ _ _ _ _ _ _ _ _ _ _ _ _ _ _ _ _ _ _ _ _ _ _ _ _ _ Ha Ha) | exact (col0_5_bd _ _ _ _ _ _ _ _ _ _ _ _ _ _ _ _ _ _ _ _ _ _ _ _ _ _ _ _ _ _ _ _ Ha Ha) | exact (col0_6_bd _ _ _ _ _ _ _ _ _ _ _ _ _ _ _ _ _ _ _ _ _ _ _ _ _ _ _ _ _ _ _ _ Ha Ha) | exact (col0_7_bd _ _ _ _ _ _ _ _ _ _ _ _ _ _ _ _ _ _ _ _ _ _ _ _ _ _ _ _ _ _ _ _ Ha Ha) | exact (col1_0_bd _ _ _ _ _ _ _ _ _ _ _ _ _ _ _ _ _ _ _ _ _ _ _ _ _ _ _ _ _ _ _ _ Ha Ha) | exact (col1_1_bd _ _ _ _ _ _ _ _ _ _ _ _ _ _ _ _ _ _ _ _ _ _ _ _ _ _ _ _ _ _ _ _ Ha Ha) | exact (col1_2_bd _ _ _ _ _ _ _ _ _ _ _ _ _ _ _ _ _ _ _ _ _ _ _ _ _ _ _ _ _ _ _ _ Ha Ha) | exact (col1_3_bd _ _ _ _ _ _ _ _ _ _ _ _ _ _ _ _ _ _ _ _ _ _ _ _ _ _ _ _ _ _ _ _ Ha Ha) | exact (col1_4_bd _ _ _ _ _ _ _ _ _ _ _ _ _ _ _ _ _ _ _ _ _ _ _ _ _ _ _ _ _ _ _ _ Ha Ha) | exact (col1_5_bd _ _ _ _ _ _ _ _ _ _ _ _ _ _ _ _ _ _ _ _ _ _ _ _ _ _ _ _ _ _ _ _ Ha Ha) | exact (col1_6_bd _ _ _ _ _ _ _ _ _ _ _ _ _ _ _ _ _ _ _ _ _ _ _ _ _ _ _ _ _ _ _ _ Ha Ha) | exact (col1_7_bd _ _ _ _ _ _ _ _ _ _ _ _ _ _ _ _ _ _ _ _ _ _ _ _ _ _ _ _ _ _ _ _ Ha Ha) ].
  - destruct (carry_chain_value
    (col0_0 a0 a1 a2 a3 a4 a5 a6 a7 a8 a9 a10 a11 a12 a13 a14 a15 a0 a1 a2 a3 a4 a5 a6 a7 a8 a9 a10 a11 a12 a13 a14 a15)
    (col0_1 a0 a1 a2 a3 a4 a5 a6 a7 a8 a9 a10 a11 a12 a13 a14 a15 a0 a1 a2 a3 a4 a5 a6 a7 a8 a9 a10 a11 a12 a13 a14 a15)
    (col0_2 a0 a1 a2 a3 a4 a5 a6 a7 a8 a9 a10 a11 a12 a13 a14 a15 a0 a1 a2 a3 a4 a5 a6 a7 a8 a9 a10 a11 a12 a13 a14 a15)
    (col0_3 a0 a1 a2 a3 a4 a5 a6 a7 a8 a9 a10 a11 a12 a13 a14 a15 a0 a1 a2 a3 a4 a5 a6 a7 a8 a9 a10 a11 a12 a13 a14 a15)
    (col0_4 a0 a1 a2 a3 a4 a5 a6 a7 a8 a9 a10 a11 a12 a13 a14 a15 a0 a1 a2 a3 a4 a5 a6 a7 a8 a9 a10 a11 a12 a13 a14 a15)
    (col0_5 a0 a1 a2 a3 a4 a5 a6 a7 a8 a9 a10 a11 a12 a13 a14 a15 a0 a1 a2 a3 a4 a5 a6 a7 a8 a9 a10 a11 a12 a13 a14 a15)
    (col0_6 a0 a1 a2 a3 a4 a5 a6 a7 a8 a9 a10 a11 a12 a13 a14 a15 a0 a1 a2 a3 a4 a5 a6 a7 a8 a9 a10 a11 a12 a13 a14 a15)
    (col0_7 a0 a1 a2 a3 a4 a5 a6 a7 a8 a9 a10 a11 a12 a13 a14 a15 a0 a1 a2 a3 a4 a5 a6 a7 a8 a9 a10 a11 a12 a13 a14 a15)
    (col1_0 a0 a1 a2 a3 a4 a5 a6 a7 a8 a9 a10 a11 a12 a13 a14 a15 a0 a1 a2 a3 a4 a5 a6 a7 a8 a9 a10 a11 a12 a13 a14 a15)
    (col1_1 a0 a1 a2 a3 a4 a5 a6 a7 a8 a9 a10 a11 a12 a13 a14 a15 a0 a1 a2 a3 a4 a5 a6 a7 a8 a9 a10 a11 a12 a13 a14 a15)
    (col1_2 a0 a1 a2 a3 a4 a5 a6 a7 a8 a9 a10 a11 a12 a13 a14 a15 a0 a1 a2 a3 a4 a5 a6 a7 a8 a9 a10 a11 a12 a13 a14 a15)
    (col1_3 a0 a1 a2 a3 a4 a5 a6 a7 a8 a9 a10 a11 a12 a13 a14 a15 a0 a1 a2 a3 a4 a5 a6 a7 a8 a9 a10 a11 a12 a13 a14 a15)
    (col1_4 a0 a1 a2 a3 a4 a5 a6 a7 a8 a9 a10 a11 a12 a13 a14 a15 a0 a1 a2 a3 a4 a5 a6 a7 a8 a9 a10 a11 a12 a13 a14 a15)
    (col1_5 a0 a1 a2 a3 a4 a5 a6 a7 a8 a9 a10 a11 a12 a13 a14 a15 a0 a1 a2 a3 a4 a5 a6 a7 a8 a9 a10 a11 a12 a13 a14 a15)
    (col1_6 a0 a1 a2 a3 a4 a5 a6 a7 a8 a9 a10 a11 a12 a13 a14 a15 a0 a1 a2 a3 a4 a5 a6 a7 a8 a9 a10 a11 a12 a13 a14 a15)
    (col1_7 a0 a1 a2 a3 a4 a5 a6 a7 a8 a9 a10 a11 a12 a13 a14 a15 a0 a1 a2 a3 a4 a5 a6 a7 a8 a9 a10 a11 a12 a13 a14 a15)) as (k & ->).
    destruct (cols_value (2 ^ 28) a0 a1 a2 a3 a4 a5 a6 a7 a8 a9 a10 a11 a12 a13 a14 a15 a0 a1 a2 a3 a4 a5 a6 a7 a8 a9 a10 a11 a12 a13 a14 a15) as (k2 & ->).
    exists (k2 + k). unfold ev. generalize (evr (2 ^ 28) (BN a0 a1 a2 a3 a4 a5 a6 a7 a8 a9 a10 a11 a12 a13 a14 a15)). intro x.
    change p448 with ((2 ^ 28) ^ 16 - (2 ^ 28) ^ 8 - 1). ring.
Qed.
