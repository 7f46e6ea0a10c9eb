(* q, the order of the base point, is prime.  The factored part of q - 1 has 95 bits and q + 1 has a
   prime factor of 55 bits.  Pocklington and a Lucas type test modulo these leave few divisors
   1 + x M, e0 + y M; they are excluded by lattice vectors, one for each interval of x. *)
From Coq Require Import ZArith List Lia Bool Znumtheory Zpow_facts Ring.
From Verif Require Import SpecScalar NumTheory PrimeP.
Import ListNotations.
Open Scope Z_scope.

(* prime divisors are 1 modulo the factored part (the core of Pocklington's criterion) *)
Lemma order_divides : forall n fs b, 1 < n -> Forall prime fs ->
  b ^ zprod fs mod n = 1 ->
  (forall c, In c (drop_one fs) -> exists u, ((b ^ c - 1) * u) mod n = 1) ->
  forall r, prime r -> (r | n) -> (zprod fs | r - 1).
Proof.
  intros n fs b Hn Hp Hb Hc r Pr Dr. assert (R1 : 1 < r) by (destruct Pr; assumption).
  set (F := zprod fs) in *.
  assert (FP : forall l, Forall prime l -> 0 < zprod l).
  { induction 1 as [|x l Hx Hl IH]; cbn; [ lia | ]. fold (zprod l). destruct Hx. nia. }
  pose proof (FP fs Hp) as F0. fold F in F0.
  assert (MR : forall z, z mod n = 1 -> z mod r = 1).
  { intros z Hz. destruct Dr as (k & Hk).
    assert (Ez : z = 1 + (z / n * k) * r).
    { pose proof (Z.div_mod z n ltac:(lia)) as E. rewrite Hz in E. set (w := z / n) in *. rewrite E, Hk. ring. }
    rewrite Ez, Z.mod_add by lia. apply Z.mod_1_l. lia. }
  pose proof (MR _ Hb) as HbF.
  assert (NB : ~ (r | b)).
  { intros (k & Hk). assert (D : (r | b ^ F)).
    { rewrite Hk. replace F with (Z.succ (F - 1)) by lia. rewrite Z.pow_succ_r by lia.
      exists (k * (k * r) ^ (F - 1)). ring. }
    apply Z.mod_divide in D; lia. }
  pose proof (fermat_units r Pr b NB) as HbR.
  pose proof (pow_gcd b r F (r - 1) R1 F0 ltac:(lia) HbF HbR) as HG.
  assert (G0 : 0 < Z.gcd F (r - 1)).
  { pose proof (Z.gcd_nonneg F (r - 1)). assert (Z.gcd F (r - 1) <> 0); [ | lia ].
    intro E. apply Z.gcd_eq_0_l in E. lia. }
  destruct (Z.eq_dec (Z.gcd F (r - 1)) F) as [E|NE].
  - rewrite <- E. apply Z.gcd_divide_r.
  - exfalso. destruct (proper_divisor fs _ Hp G0 (Z.gcd_divide_l F (r - 1)) NE) as (c & Hc1 & Hc2).
    destruct (Hc c Hc1) as (u & Hu). apply MR in Hu.
    assert (C0 : 0 < c).
    { assert (A : forall l, Forall prime l -> forall x, In x (drop_one l) -> 0 < x).
      { induction 1 as [|x l Hx Hl IH]; cbn; [ tauto | ]. intros y [<-|Hy]; [ apply FP; assumption | ].
        apply in_map_iff in Hy. destruct Hy as (z & <- & Hz). specialize (IH z Hz). destruct Hx. nia. }
      apply (A fs Hp). exact Hc1. }
    destruct Hc2 as (k & Hk).
    assert (B1 : b ^ c mod r = 1).
    { rewrite Hk, Z.mul_comm. apply pow_one; [ lia | lia | nia | exact HG ]. }
    rewrite Z.mul_mod, Zminus_mod, B1 in Hu by lia.
    rewrite (Z.mod_1_l r R1), Z.sub_diag, (Z.mod_0_l r), Z.mul_0_l, (Z.mod_0_l r) in Hu by lia. discriminate.
Qed.

(* binomial coefficients *)
Fixpoint binom (n k : nat) : Z :=
  match n, k with
  | _, O => 1
  | O, S _ => 0
  | S n', S k' => binom n' k' + binom n' k
  end.
Lemma binom_gt : forall n k, (n < k)%nat -> binom n k = 0.
Proof.
  induction n as [|n IH]; intros [|k] H; try lia; [ reflexivity | ]. cbn [binom]. rewrite !IH by lia. reflexivity.
Qed.
Lemma binom_diag : forall n, binom n n = 1.
Proof. induction n as [|n IH]; [ reflexivity | ]. cbn [binom]. rewrite IH, binom_gt by lia. reflexivity. Qed.
Lemma binom_0 : forall n, binom n 0 = 1.
Proof. destruct n; reflexivity. Qed.
Lemma binom_abs : forall n k, Z.of_nat (S k) * binom (S n) (S k) = Z.of_nat (S n) * binom n k.
Proof.
  induction n as [|n IH]; intro k.
  - destruct k as [|k]; [ reflexivity | ]. cbn [binom]. ring.
  - change (binom (S (S n)) (S k)) with (binom (S n) k + binom (S n) (S k)).
    pose proof (IH k) as E1. destruct k as [|k].
    + rewrite binom_0 in *. lia.
    + pose proof (IH k) as E2.
      replace (Z.of_nat (S (S k))) with (Z.of_nat (S k) + 1) in * by lia.
      replace (Z.of_nat (S (S n))) with (Z.of_nat (S n) + 1) by lia.
      change (binom (S n) (S k)) with (binom n k + binom n (S k)) in *. lia.
Qed.
Lemma binom_prime : forall r k, prime (Z.of_nat r) -> (0 < k < r)%nat -> (Z.of_nat r | binom r k).
Proof.
  intros r k Pr Hk. destruct r as [|r]; [ lia | ]. destruct k as [|k]; [ lia | ].
  assert (D : (Z.of_nat (S r) | Z.of_nat (S k) * binom (S r) (S k))) by (rewrite binom_abs; apply Z.divide_factor_l).
  apply prime_mult in D; [ | exact Pr ]. destruct D as [D|D]; [ | exact D ].
  apply Z.divide_pos_le in D; lia.
Qed.

(* Z[sqrt D] *)
Section Quad.
Variable D : Z.
Definition quad : Set := (Z * Z)%type.
Definition q0 : quad := (0, 0).
Definition q1 : quad := (1, 0).
Definition qadd (x y : quad) : quad := (fst x + fst y, snd x + snd y).
Definition qopp (x : quad) : quad := (- fst x, - snd x).
Definition qsub (x y : quad) : quad := (fst x - fst y, snd x - snd y).
Definition qmul (x y : quad) : quad := (fst x * fst y + D * (snd x * snd y), fst x * snd y + snd x * fst y).
Definition qsc (k : Z) (x : quad) : quad := (k * fst x, k * snd x).
Lemma quad_eq : forall x y : quad, fst x = fst y -> snd x = snd y -> x = y.
Proof. intros (a, b) (c, d) H1 H2. cbn in *. congruence. Qed.
Ltac quad := intros; apply quad_eq; unfold qadd, qmul, qopp, qsub, qsc, q0, q1; cbn [fst snd]; ring.
Lemma quad_ring : ring_theory q0 q1 qadd qmul qsub qopp (@eq quad).
Proof. constructor; quad. Qed.
Add Ring quad_r : quad_ring.
Lemma qsc_mul : forall k x y, qmul (qsc k x) y = qsc k (qmul x y).
Proof. quad. Qed.
Lemma qsc_add : forall k l x, qsc (k + l) x = qadd (qsc k x) (qsc l x).
Proof. quad. Qed.
Lemma qsc_1 : forall x, qsc 1 x = x.
Proof. quad. Qed.
Lemma qsc_0 : forall x, qsc 0 x = q0.
Proof. quad. Qed.

Fixpoint qpow (x : quad) (n : nat) : quad := match n with O => q1 | S n' => qmul x (qpow x n') end.
Lemma qpow_S : forall x n, qpow x (S n) = qmul x (qpow x n).
Proof. reflexivity. Qed.
Lemma qpow_add : forall x n m, qpow x (n + m) = qmul (qpow x n) (qpow x m).
Proof. induction n as [|n IH]; intro m; cbn [Nat.add qpow]; [ ring | rewrite IH; ring ]. Qed.
Lemma qpow_mul : forall x n m, qpow x (n * m) = qpow (qpow x m) n.
Proof. induction n as [|n IH]; intro m; cbn [Nat.mul qpow]; [ reflexivity | ]. rewrite qpow_add, IH. reflexivity. Qed.

Fixpoint qsum (f : nat -> quad) (n : nat) : quad := match n with O => f 0%nat | S n' => qadd (qsum f n') (f n) end.
Lemma qsum_ext : forall f g n, (forall k, (k <= n)%nat -> f k = g k) -> qsum f n = qsum g n.
Proof. induction n as [|n IH]; intro H; cbn [qsum]; [ apply H; lia | ]. rewrite IH, H by (intros; try apply H; lia). reflexivity. Qed.
Lemma qsum_add : forall f g n, qadd (qsum f n) (qsum g n) = qsum (fun k => qadd (f k) (g k)) n.
Proof. induction n as [|n IH]; cbn [qsum]; [ reflexivity | ]. rewrite <- IH. ring. Qed.
Lemma qsum_mul : forall x f n, qmul x (qsum f n) = qsum (fun k => qmul x (f k)) n.
Proof. induction n as [|n IH]; cbn [qsum]; [ reflexivity | ]. rewrite <- IH. ring. Qed.
Lemma qsum_shift : forall f n, qsum f (S n) = qadd (f 0%nat) (qsum (fun k => f (S k)) n).
Proof. induction n as [|n IH]; [ reflexivity | ]. cbn [qsum] in *. rewrite IH. ring. Qed.

Definition bterm (x y : quad) (n k : nat) : quad := qsc (binom n k) (qmul (qpow x k) (qpow y (n - k))).
Lemma binomial : forall x y n, qpow (qadd x y) n = qsum (bterm x y n) n.
Proof.
  intros x y. induction n as [|n IH]; [ unfold bterm; cbn; rewrite qsc_1; ring | ].
  rewrite qpow_S, IH.
  replace (qmul (qadd x y) (qsum (bterm x y n) n)) with (qadd (qmul x (qsum (bterm x y n) n)) (qmul y (qsum (bterm x y n) n))) by ring.
  assert (E1 : qmul y (qsum (bterm x y n) n) = qsum (fun k => qsc (binom n k) (qmul (qpow x k) (qpow y (S n - k)))) (S n)).
  { cbn [qsum]. rewrite binom_gt by lia. rewrite qsc_0. rewrite qsum_mul.
    replace (qadd (qsum (fun k => qsc (binom n k) (qmul (qpow x k) (qpow y (S n - k)))) n) q0)
      with (qsum (fun k => qsc (binom n k) (qmul (qpow x k) (qpow y (S n - k)))) n) by ring.
    apply qsum_ext. intros k Hk. unfold bterm. replace (S n - k)%nat with (S (n - k)) by lia. rewrite qpow_S.
    unfold qsc, qmul. apply quad_eq; cbn [fst snd]; ring. }
  rewrite E1, qsum_shift, (qsum_shift (bterm x y (S n))). rewrite qsum_mul.
  transitivity (qadd (qsc (binom n 0) (qmul (qpow x 0) (qpow y (S n - 0))))
    (qadd (qsum (fun k => qmul x (bterm x y n k)) n) (qsum (fun k => qsc (binom n (S k)) (qmul (qpow x (S k)) (qpow y (S n - S k)))) n))); [ ring | ].
  rewrite qsum_add. f_equal; [ unfold bterm; rewrite !binom_0; reflexivity | ].
  apply qsum_ext. intros k Hk. unfold bterm. change (binom (S n) (S k)) with (binom n k + binom n (S k)).
  rewrite qsc_add. f_equal. change (S n - S k)%nat with (n - k)%nat. rewrite qpow_S.
  unfold qsc, qmul. apply quad_eq; cbn [fst snd]; ring.
Qed.

(* congruence *)
Definition qcong (r : Z) (x y : quad) : Prop := (r | fst x - fst y) /\ (r | snd x - snd y).
Lemma qcong_refl : forall r x, qcong r x x.
Proof. intros r x. split; rewrite Z.sub_diag; apply Z.divide_0_r. Qed.
Lemma qcong_sym : forall r x y, qcong r x y -> qcong r y x.
Proof. intros r x y ((a & Ha) & (b & Hb)). split; [ exists (- a) | exists (- b) ]; lia. Qed.
Lemma qcong_trans : forall r x y z, qcong r x y -> qcong r y z -> qcong r x z.
Proof. intros r x y z ((a & Ha) & (b & Hb)) ((c & Hc) & (d & Hd)). split; [ exists (a + c) | exists (b + d) ]; lia. Qed.
Lemma qcong_add : forall r x y z w, qcong r x y -> qcong r z w -> qcong r (qadd x z) (qadd y w).
Proof.
  intros r x y z w ((a & Ha) & (b & Hb)) ((c & Hc) & (d & Hd)). unfold qadd, qcong. cbn [fst snd].
  split; [ exists (a + c) | exists (b + d) ]; lia.
Qed.
Lemma qcong_mul : forall r x y z w, qcong r x y -> qcong r z w -> qcong r (qmul x z) (qmul y w).
Proof.
  intros r (x1, x2) (y1, y2) (z1, z2) (w1, w2) ((a & Ha) & (b & Hb)) ((c & Hc) & (d & Hd)). unfold qmul, qcong. cbn [fst snd] in *.
  replace x1 with (y1 + a * r) by lia. replace x2 with (y2 + b * r) by lia. replace z1 with (w1 + c * r) by lia. replace z2 with (w2 + d * r) by lia.
  split; [ exists (a * w1 + y1 * c + a * c * r + D * (b * w2 + y2 * d + b * d * r)) | exists (a * w2 + y1 * d + a * d * r + (b * w1 + y2 * c + b * c * r)) ]; ring.
Qed.
Lemma qcong_pow : forall r x y n, qcong r x y -> qcong r (qpow x n) (qpow y n).
Proof. induction n as [|n IH]; intro H; cbn [qpow]; [ apply qcong_refl | ]. apply qcong_mul; auto. Qed.
Lemma qpow_q1 : forall n, qpow q1 n = q1.
Proof. induction n as [|n IH]; [ reflexivity | ]. cbn [qpow]. rewrite IH. ring. Qed.

(* the Frobenius map is additive *)
Lemma frobenius : forall r x y, prime (Z.of_nat r) -> qcong (Z.of_nat r) (qpow (qadd x y) r) (qadd (qpow x r) (qpow y r)).
Proof.
  intros r x y Pr. rewrite binomial.
  assert (R2 : (2 <= r)%nat) by (destruct Pr; lia).
  destruct r as [|r]; [ lia | ]. cbn [qsum].
  assert (M : forall n, (n <= r)%nat -> qcong (Z.of_nat (S r)) (qsum (bterm x y (S r)) n) (qpow y (S r))).
  { induction n as [|n IH]; intro Hn.
    - cbn [qsum]. unfold bterm. rewrite binom_0, qsc_1, Nat.sub_0_r. cbn [qpow].
      match goal with |- qcong _ ?a ?b => replace a with b by ring end. apply qcong_refl.
    - cbn [qsum]. match goal with |- qcong _ _ ?b => replace b with (qadd b q0) by ring end.
      apply qcong_add; [ apply IH; lia | ]. unfold bterm. destruct (binom_prime (S r) (S n) Pr ltac:(lia)) as (k & ->).
      unfold qsc, q0, qcong. cbn [fst snd]. rewrite !Z.sub_0_r. split; rewrite (Z.mul_comm k), <- Z.mul_assoc; apply Z.divide_factor_l. }
  assert (E : bterm x y (S r) (S r) = qpow x (S r)).
  { unfold bterm. rewrite binom_diag, qsc_1, Nat.sub_diag. change (qpow y 0) with q1. ring. }
  rewrite E. eapply qcong_trans; [ apply qcong_add; [ apply M; lia | apply qcong_refl ] | ].
  match goal with |- qcong _ ?a ?b => replace a with b by ring end. apply qcong_refl.
Qed.
Lemma qpow_re : forall u n, qpow (u, 0) n = (u ^ Z.of_nat n, 0).
Proof.
  induction n as [|n IH]; [ reflexivity | ]. cbn [qpow]. rewrite IH, Nat2Z.inj_succ, Z.pow_succ_r by lia.
  unfold qmul. cbn [fst snd]. apply quad_eq; cbn [fst snd]; ring.
Qed.
Lemma qpow_im : forall v m, qpow (0, v) (2 * m + 1) = (0, v ^ Z.of_nat (2 * m + 1) * D ^ Z.of_nat m).
Proof.
  induction m as [|m IH].
  - unfold qmul. apply quad_eq; cbn -[Z.mul Z.add]; ring.
  - replace (2 * S m + 1)%nat with (S (S (2 * m + 1))) by lia. rewrite !qpow_S, IH.
    rewrite !Nat2Z.inj_succ, !Z.pow_succ_r by lia. unfold qmul. apply quad_eq; cbn [fst snd]; ring.
Qed.

Lemma fermat_all : forall r a, prime r -> (r | a ^ r - a).
Proof.
  intros r a Pr. assert (R1 : 1 < r) by (destruct Pr; assumption).
  replace (a ^ r) with (a * a ^ (r - 1)) by (rewrite <- Z.pow_succ_r by lia; f_equal; lia).
  replace (a * a ^ (r - 1) - a) with (a * (a ^ (r - 1) - 1)) by ring.
  destruct (Zdivide_dec r a) as [H|H]; [ apply Z.divide_mul_l; exact H | ]. apply Z.divide_mul_r.
  apply Z.mod_divide; [ lia | ]. rewrite Zminus_mod, (fermat_units r Pr a H), (Z.mod_1_l r) by lia. rewrite Z.sub_diag. apply Z.mod_0_l. lia.
Qed.
(* elements of norm 1: the order divides r - 1 or r + 1 *)
Lemma norm_one_order : forall r u v, prime r -> Z.odd r = true -> ~ (r | D) -> (r | u * u - D * (v * v) - 1) ->
  qcong r (qpow (u, v) (Z.to_nat (r - 1))) q1 \/ qcong r (qpow (u, v) (Z.to_nat (r + 1))) q1.
Proof.
  intros r u v Pr Or ND N. assert (R1 : 1 < r) by (destruct Pr; assumption).
  set (m := Z.to_nat (r / 2)).
  assert (Er : r = 2 * (r / 2) + 1).
  { pose proof (Z.div_mod r 2 ltac:(lia)) as E. rewrite Zmod_odd, Or in E. lia. }
  assert (H0 : 0 <= r / 2) by (apply Z.div_pos; lia).
  assert (Em : Z.to_nat r = (2 * m + 1)%nat) by (unfold m; lia).
  assert (EZ : Z.of_nat (Z.to_nat r) = r) by lia.
  pose proof (frobenius (Z.to_nat r) (u, 0) (0, v)) as Fr. rewrite EZ in Fr. specialize (Fr Pr).
  replace (qadd (u, 0) (0, v)) with ((u, v) : quad) in Fr by (apply quad_eq; unfold qadd; cbn [fst snd]; ring).
  rewrite Em in Fr. rewrite qpow_re, qpow_im in Fr. rewrite <- Em, EZ in Fr. replace (Z.of_nat m) with (r / 2) in Fr by (unfold m; lia).
  (* D^((r-1)/2) = +-1 *)
  assert (Eu : (r | (D ^ (r / 2) - 1) * (D ^ (r / 2) + 1))).
  { replace ((D ^ (r / 2) - 1) * (D ^ (r / 2) + 1)) with (D ^ (r / 2) * D ^ (r / 2) - 1) by ring.
    rewrite <- Z.pow_add_r by lia. replace (r / 2 + r / 2) with (r - 1) by lia.
    apply Z.mod_divide; [ lia | ]. rewrite Zminus_mod, (fermat_units r Pr D ND), (Z.mod_1_l r) by lia. rewrite Z.sub_diag. apply Z.mod_0_l. lia. }
  destruct (fermat_all r u Pr) as (a & Ha). destruct (fermat_all r v Pr) as (b & Hb).
  destruct N as (k & Hk). set (e := D ^ (r / 2)) in *.
  apply prime_mult in Eu; [ | exact Pr ]. destruct Eu as [(c & Hc)|(c & Hc)].
  - left.
    assert (C : qcong r (qpow (u, v) (Z.to_nat r)) (u, v)).
    { eapply qcong_trans; [ exact Fr | ]. unfold qadd, qcong. cbn [fst snd]. split; [ exists a; lia | ].
      exists (b * e + v * c). replace e with (1 + c * r) by lia. replace (v ^ r) with (v + b * r) by lia. ring. }
    replace (Z.to_nat r) with (S (Z.to_nat (r - 1))) in C by lia. rewrite qpow_S in C.
    apply (qcong_mul r _ _ (u, - v) (u, - v)) in C; [ | apply qcong_refl ].
    assert (Q : qcong r (qmul (u, v) (u, - v)) q1).
    { unfold qmul, q1, qcong. cbn [fst snd]. split; [ exists k; lia | exists 0; ring ]. }
    set (w := qpow (u, v) (Z.to_nat (r - 1))) in *.
    replace (qmul (qmul (u, v) w) (u, - v)) with (qmul w (qmul (u, v) (u, - v))) in C by ring.
    eapply qcong_trans; [ | eapply qcong_trans; [ exact C | exact Q ] ].
    apply qcong_sym. eapply qcong_trans; [ apply qcong_mul; [ apply qcong_refl | exact Q ] | ].
    replace (qmul w q1) with w by ring. apply qcong_refl.
  - right.
    assert (C : qcong r (qpow (u, v) (Z.to_nat r)) (u, - v)).
    { eapply qcong_trans; [ exact Fr | ]. unfold qadd, qcong. cbn [fst snd]. split; [ exists a; lia | ].
      exists (b * e + v * c). replace e with (- 1 + c * r) by lia. replace (v ^ r) with (v + b * r) by lia. ring. }
    replace (Z.to_nat (r + 1)) with (S (Z.to_nat r)) by lia. rewrite qpow_S.
    eapply qcong_trans; [ apply qcong_mul; [ apply qcong_refl | exact C ] | ].
    unfold qmul, q1, qcong. cbn [fst snd]. split; [ exists k; lia | exists 0; ring ].
Qed.
Lemma bezout_nat : forall a b, 0 < a -> 0 < b -> Z.gcd a b = 1 -> exists u v, 0 <= u /\ 0 <= v /\ a * u = b * v + 1.
Proof.
  intros a b Ha Hb G. destruct (Z.gcd_bezout a b 1 G) as (s & t & E).
  set (w := Z.abs s + Z.abs t + 1). exists (s + b * w), (a * w - t). unfold w. split; [ nia | ]. split; [ nia | ].
  replace (a * (s + b * (Z.abs s + Z.abs t + 1))) with (s * a + a * b * (Z.abs s + Z.abs t + 1)) by ring.
  replace (s * a) with (1 - t * b) by lia. ring.
Qed.
Lemma qorder_coprime : forall r x a b, 0 < a -> 0 < b -> Z.gcd a b = 1 ->
  qcong r (qpow x (Z.to_nat a)) q1 -> qcong r (qpow x (Z.to_nat b)) q1 -> qcong r x q1.
Proof.
  intros r x a b Ha Hb G H1 H2. destruct (bezout_nat a b Ha Hb G) as (u & v & Hu & Hv & E).
  assert (N : (Z.to_nat u * Z.to_nat a = S (Z.to_nat v * Z.to_nat b))%nat) by (rewrite <- !Z2Nat.inj_mul by lia; rewrite Z.mul_comm, E; lia).
  apply (qcong_pow r _ _ (Z.to_nat u)) in H1. apply (qcong_pow r _ _ (Z.to_nat v)) in H2.
  rewrite <- qpow_mul, qpow_q1 in H1, H2. rewrite N, qpow_S in H1.
  eapply qcong_trans; [ | exact H1 ]. apply qcong_sym. eapply qcong_trans; [ apply qcong_mul; [ apply qcong_refl | exact H2 ] | ].
  replace (qmul x q1) with x by ring. apply qcong_refl.
Qed.

(* powers modulo n, with a reduction function *)
Section Power.
Variable n : Z.
Variable rd : Z -> Z.
Hypothesis rd_ok : forall z, (n | rd z - z).
Definition qmulf (x y : quad) : quad :=
  let a := fst x * fst y in
  let b := snd x * snd y in
  let c := (fst x + snd x) * (fst y + snd y) - a - b in
  (rd (a + D * b), rd c).
Definition qsqrf (x : quad) : quad :=
  let a := Z.square (fst x) in
  let b := Z.square (snd x) in
  let c := Z.square (fst x + snd x) - a - b in
  (rd (a + D * b), rd c).
Fixpoint qpm (x : quad) (e : positive) : quad :=
  match e with
  | xH => x
  | xO e' => qsqrf (qpm x e')
  | xI e' => qmulf (qsqrf (qpm x e')) x
  end.
Lemma qmulf_cong : forall x y, qcong n (qmulf x y) (qmul x y).
Proof.
  intros x y. unfold qmulf, qmul, qcong. cbv zeta. cbn [fst snd].
  destruct (rd_ok (fst x * fst y + D * (snd x * snd y))) as (a & Ha).
  destruct (rd_ok ((fst x + snd x) * (fst y + snd y) - fst x * fst y - snd x * snd y)) as (b & Hb).
  split; [ exists a; lia | exists b; lia ].
Qed.
Lemma qsqrf_cong : forall x, qcong n (qsqrf x) (qmul x x).
Proof.
  intro x. replace (qsqrf x) with (qmulf x x); [ apply qmulf_cong | ].
  unfold qsqrf, qmulf. rewrite !Z.square_spec. reflexivity.
Qed.
Lemma qpm_ok : forall x e, qcong n (qpm x e) (qpow x (Pos.to_nat e)).
Proof.
  intros x e. induction e as [e IH|e IH|]; cbn [qpm].
  - rewrite Pos2Nat.inj_xI. rewrite qpow_S. replace (2 * Pos.to_nat e)%nat with (Pos.to_nat e + Pos.to_nat e)%nat by lia. rewrite qpow_add.
    eapply qcong_trans; [ apply qmulf_cong | ].
    replace (qmul x (qmul (qpow x (Pos.to_nat e)) (qpow x (Pos.to_nat e)))) with (qmul (qmul (qpow x (Pos.to_nat e)) (qpow x (Pos.to_nat e))) x) by ring.
    apply qcong_mul; [ | apply qcong_refl ]. eapply qcong_trans; [ apply qsqrf_cong | ]. apply qcong_mul; exact IH.
  - rewrite Pos2Nat.inj_xO. replace (2 * Pos.to_nat e)%nat with (Pos.to_nat e + Pos.to_nat e)%nat by lia. rewrite qpow_add.
    eapply qcong_trans; [ apply qsqrf_cong | ]. apply qcong_mul; exact IH.
  - change (Pos.to_nat 1) with 1%nat. cbn [qpow]. replace (qmul x q1) with x by ring. apply qcong_refl.
Qed.
(* the test with a prime l dividing n + 1 *)
Definition luc_test (l : Z) (x : quad) (inv : Z) : bool :=
  let t := qpm x (Z.to_pos l) in
  (fst t mod n =? 1) && (snd t mod n =? 0) && ((fst x * fst x - D * (snd x * snd x) - 1) mod n =? 0) && (((2 - 2 * fst x) * inv) mod n =? 1).
Lemma luc_ok : forall l x inv, 1 < n -> prime l -> luc_test l x inv = true ->
  forall r, prime r -> (r | n) -> Z.odd r = true -> ~ (r | D) -> (l | r - 1) \/ (l | r + 1).
Proof.
  intros l (u, v) inv Hn Pl H r Pr Dr Or ND. unfold luc_test in H. cbv zeta in H.
  apply andb_prop in H. destruct H as (H & H4). apply andb_prop in H. destruct H as (H & H3). apply andb_prop in H. destruct H as (H1 & H2).
  apply Z.eqb_eq in H1, H2, H3, H4. cbn [fst snd] in H3, H4.
  assert (R1 : 1 < r) by (destruct Pr; assumption). assert (L1 : 1 < l) by (destruct Pl; assumption).
  assert (X : qcong r (qpow (u, v) (Z.to_nat l)) q1).
  { pose proof (qpm_ok (u, v) (Z.to_pos l)) as Q.
    assert (EE : Pos.to_nat (Z.to_pos l) = Z.to_nat l) by lia. rewrite EE in Q.
    set (t := qpm (u, v) (Z.to_pos l)) in *. clearbody t.
    assert (Q' : qcong n t q1).
    { unfold qcong, q1. cbn [fst snd]. split; apply Z.mod_divide; try lia;
        rewrite Zminus_mod, ?H1, ?H2, ?(Z.mod_1_l n), ?(Z.mod_0_l n) by lia; rewrite Z.sub_diag; apply Z.mod_0_l; lia. }
    apply qcong_sym in Q. destruct (qcong_trans _ _ _ _ Q Q') as (Q1 & Q2).
    split; eapply Z.divide_trans; try exact Dr; assumption. }
  assert (ND1 : ~ qcong r (u, v) q1).
  { intros (C1 & _). cbn [fst q1] in C1. destruct Dr as (k & Hk). destruct C1 as (c & Hc).
    assert (E : r * (- 2 * c * inv - k * (((2 - 2 * u) * inv) / n)) = 1).
    { pose proof (Z.div_mod ((2 - 2 * u) * inv) n ltac:(lia)) as E. rewrite H4 in E. set (w := ((2 - 2 * u) * inv) / n) in *.
      replace (r * (- 2 * c * inv - k * w)) with (- 2 * (c * r) * inv - (k * r) * w) by ring. rewrite <- Hc, <- Hk.
      replace (-2 * (u - 1) * inv) with ((2 - 2 * u) * inv) by ring. lia. }
    apply Z.eq_mul_1 in E. lia. }
  assert (CP : forall s, 0 < s -> ~ (l | s) -> Z.gcd l s = 1).
  { intros s Hs N. apply Zgcd_1_rel_prime. apply prime_rel_prime; assumption. }
  destruct (norm_one_order r u v Pr Or ND) as [C|C].
  { apply Z.divide_trans with n; [ exact Dr | ]. apply Z.mod_divide; [ lia | exact H3 ]. }
  - left. destruct (Zdivide_dec l (r - 1)) as [|N]; [ assumption | exfalso ]. apply ND1.
    apply (qorder_coprime r (u, v) l (r - 1)); try assumption; try lia. apply CP; [ lia | exact N ].
  - right. destruct (Zdivide_dec l (r + 1)) as [|N]; [ assumption | exfalso ]. apply ND1.
    apply (qorder_coprime r (u, v) l (r + 1)); try assumption; try lia. apply CP; [ lia | exact N ].
Qed.
End Power.
End Quad.

(* all divisors *)
Lemma divisors_mod : forall n F l, 1 < n -> (forall r, prime r -> (r | n) -> (F | r - 1) /\ ((l | r - 1) \/ (l | r + 1))) ->
  forall d, 0 < d -> (d | n) -> (F | d - 1) /\ ((l | d - 1) \/ (l | d + 1)).
Proof.
  intros n F l Hn H. assert (G : forall k d, 0 < d < Z.of_nat k -> (d | n) -> (F | d - 1) /\ ((l | d - 1) \/ (l | d + 1))).
  2:{ intros d Hd. apply (G (Z.to_nat (d + 1))). lia. }
  induction k as [|k IH]; intros d Hd D; [ lia | ]. destruct (Z.eq_dec d 1) as [->|N1].
  - split; [ | left ]; apply Z.divide_0_r.
  - destruct (prime_divisor d ltac:(lia)) as (r & Pr & (e & E)). assert (R1 : 1 < r) by (destruct Pr; assumption).
    assert (E0 : 0 < e) by nia. assert (Ed : e < d) by nia.
    assert (De : (e | n)) by (apply Z.divide_trans with d; [ exists r; lia | exact D ]).
    assert (Dr : (r | n)) by (apply Z.divide_trans with d; [ exists e; lia | exact D ]).
    destruct (IH e ltac:(lia) De) as ((a & Ha) & A). destruct (H r Pr Dr) as ((b & Hb) & B). subst d.
    split; [ exists (a * r + b); nia | ].
    destruct A as [(x & Hx)|(x & Hx)], B as [(y & Hy)|(y & Hy)].
    + left. exists (x * r + y). nia.
    + right. exists (x * r + y). nia.
    + right. exists (x * r - y). nia.
    + left. exists (x * r - y). nia.
Qed.

(* (1 + x M)(e0 + y M) = n: for x in X1 .. X2, a x + b y takes few values v, and then a quadratic
   equation for x has a discriminant that is no square *)
Section Cover.
Variables M e0 Q1 : Z.
Definition nonsq (d m : Z) : bool := forallb (fun t => negb ((Z.of_nat t * Z.of_nat t - d) mod m =? 0)) (seq 0 (Z.to_nat m)) && (0 <? m).
Definition disc (a b v : Z) : Z := (b * e0 - a + v * M) * (b * e0 - a + v * M) + 4 * a * M * (v - b * Q1).
Fixpoint values (a b v hi : Z) (ms : list Z) : bool :=
  match ms with
  | [] => hi <? v
  | m :: t => nonsq (disc a b v) m && values a b (v + M) hi t
  end.
Definition interval (X1 X2 a b : Z) (ms : list Z) : bool :=
  let ym := Q1 / (X1 * M) in
  let lo := Z.min (a * X1) (a * X2) + Z.min 0 (b * ym) in
  let hi := Z.max (a * X1) (a * X2) + Z.max 0 (b * ym) in
  ((b * e0 - a) mod M =? 0) && values a b (lo + (b * Q1 - lo) mod M) hi ms.
Fixpoint cover (X1 : Z) (l : list (Z * Z * Z * list Z)) : bool :=
  match l with
  | [] => Q1 <? X1 * e0
  | (X2, a, b, ms) :: t => (X1 <=? X2) && interval X1 X2 a b ms && cover (X2 + 1) t
  end.
Hypothesis M0 : 0 < M.
Hypothesis e00 : 0 < e0.

Lemma nonsq_ok : forall d m, nonsq d m = true -> forall t, d <> t * t.
Proof.
  intros d m H t E. unfold nonsq in H. apply andb_prop in H. destruct H as (H & Hm). apply Z.ltb_lt in Hm.
  rewrite forallb_forall in H. pose proof (Z.mod_pos_bound t m Hm) as R.
  specialize (H (Z.to_nat (t mod m)) ltac:(apply in_seq; lia)). rewrite Z2Nat.id in H by lia.
  apply negb_true_iff in H. apply Z.eqb_neq in H. apply H. subst d.
  rewrite Zminus_mod, <- Z.mul_mod by lia. rewrite Z.sub_diag. apply Z.mod_0_l. lia.
Qed.
Lemma values_ok : forall ms a b v hi, values a b v hi ms = true ->
  forall k, 0 <= k -> v + k * M <= hi -> forall t, disc a b (v + k * M) <> t * t.
Proof.
  induction ms as [|m ms IH]; intros a b v hi H k Hk Hi t; cbn [values] in H.
  - apply Z.ltb_lt in H. nia.
  - apply andb_prop in H. destruct H as (H1 & H2). destruct (Z.eq_dec k 0) as [->|N].
    + rewrite Z.mul_0_l, Z.add_0_r. apply (nonsq_ok _ _ H1).
    + replace (v + k * M) with (v + M + (k - 1) * M) in * by ring. apply (IH a b (v + M) hi); auto. lia.
Qed.
Lemma interval_ok : forall X1 X2 a b ms, 0 < X1 -> interval X1 X2 a b ms = true ->
  forall x y, X1 <= x <= X2 -> 0 <= y -> y + x * e0 + x * y * M = Q1 -> False.
Proof.
  intros X1 X2 a b ms HX H x y Hx Hy E. unfold interval in H. cbv zeta in H. apply andb_prop in H. destruct H as (H1 & H2).
  apply Z.eqb_eq in H1.
  assert (YM : y <= Q1 / (X1 * M)).
  { apply Z.div_le_lower_bound; [ nia | ]. assert (X1 * y <= x * y) by nia. assert (0 <= x * e0) by nia. nia. }
  set (ym := Q1 / (X1 * M)) in *. clearbody ym.
  set (lo := Z.min (a * X1) (a * X2) + Z.min 0 (b * ym)) in *. set (hi := Z.max (a * X1) (a * X2) + Z.max 0 (b * ym)) in *.
  set (v := a * x + b * y).
  assert (L1 : Z.min (a * X1) (a * X2) <= a * x <= Z.max (a * X1) (a * X2)) by (clear - Hx; destruct (Z_le_gt_dec 0 a); nia).
  assert (L2 : Z.min 0 (b * ym) <= b * y <= Z.max 0 (b * ym)) by (clear - Hy YM; destruct (Z_le_gt_dec 0 b); nia).
  assert (V1 : lo <= v <= hi) by (unfold v, lo, hi; lia).
  apply Z.mod_divide in H1; [ | lia ]. destruct H1 as (g & Hg).
  assert (V2 : exists k, b * Q1 = v + k * M).
  { exists (b * x * y + g * x). unfold v. rewrite <- E. replace (b * (y + x * e0 + x * y * M)) with (b * y + b * e0 * x + b * x * y * M) by ring.
    replace (b * e0) with (a + g * M) by lia. ring. }
  destruct V2 as (k & V2).
  set (v0 := lo + (b * Q1 - lo) mod M) in *.
  assert (V3 : exists j, 0 <= j /\ v = v0 + j * M).
  { pose proof (Z.div_mod (b * Q1 - lo) M ltac:(lia)) as DM. pose proof (Z.mod_pos_bound (b * Q1 - lo) M M0) as MB.
    set (w := (b * Q1 - lo) / M) in *. exists (w - k). split; [ | unfold v0; lia ].
    unfold v0 in *. set (z := (b * Q1 - lo) mod M) in *. assert ((w - k + 1) * M > 0) by lia. nia. }
  destruct V3 as (j & J0 & V3).
  apply (values_ok ms a b v0 hi H2 j J0 ltac:(lia) (2 * (- a * M) * x + (b * e0 - a + v * M))).
  rewrite <- V3. unfold disc. rewrite <- E. unfold v. ring.
Qed.
Lemma cover_ok : forall l X1, 0 < X1 -> cover X1 l = true ->
  forall x y, X1 <= x -> 0 <= y -> y + x * e0 + x * y * M = Q1 -> False.
Proof.
  induction l as [|(((X2, a), b), ms) l IH]; intros X1 HX H x y Hx Hy E; cbn [cover] in H.
  - apply Z.ltb_lt in H. assert (X1 * e0 <= x * e0) by nia. assert (0 <= x * y * M) by (apply Z.mul_nonneg_nonneg; nia). lia.
  - apply andb_prop in H. destruct H as (H1 & H2). apply andb_prop in H1. destruct H1 as (H0 & H1). apply Z.leb_le in H0. destruct (Z_le_gt_dec x X2) as [L|G].
    + apply (interval_ok X1 X2 a b ms HX H1 x y); auto.
    + apply (IH (X2 + 1) ltac:(lia) H2 x y); auto. lia.
Qed.
End Cover.

(* a primality criterion *)
Lemma prime_by_cover : forall n F l cs, 1 < n -> 0 < F -> 2 < l -> rel_prime F l -> (l | n + 1) -> 0 < n mod (F * l) ->
  (forall r, prime r -> (r | n) -> (F | r - 1) /\ ((l | r - 1) \/ (l | r + 1))) ->
  cover (F * l) (n mod (F * l)) (n / (F * l)) 1 cs = true -> prime n.
Proof.
  intros n F l cs Hn HF Hl RP Dn He Hr HC. destruct (prime_dec n) as [|NP]; [ assumption | exfalso ].
  destruct (not_prime_divide n Hn NP) as (d & Hd & (e & E)).
  assert (HM : 0 < F * l) by nia.
  assert (K : forall d e, 1 < d -> 1 < e -> n = d * e -> (l | d - 1) -> False).
  { clear d e Hd E. intros d e Hd1 He1 E L1.
    destruct (divisors_mod n F l Hn Hr d ltac:(lia)) as (F1 & _); [ exists e; lia | ].
    assert (MD : (F * l | d - 1)).
    { destruct F1 as (x & Hx). rewrite Hx, Z.mul_comm in L1. apply Gauss in L1; [ | apply rel_prime_sym; exact RP ].
      destruct L1 as (y & Hy). exists y. rewrite Hx, Hy. ring. }
    destruct MD as (x & Hx). set (M := F * l) in *.
    assert (X1 : 1 <= x) by nia.
    assert (EM : e mod M = n mod M).
    { replace n with (e + (x * e) * M) by (rewrite E; replace d with (1 + x * M) by lia; ring). rewrite Z.mod_add by lia. reflexivity. }
    pose proof (Z.div_mod e M ltac:(lia)) as De. rewrite EM in De. pose proof (Z.div_mod n M ltac:(lia)) as DN.
    assert (Y0 : 0 <= e / M) by (apply Z.div_pos; lia).
    set (y := e / M) in *. set (e0 := n mod M) in *. set (Q1 := n / M) in *.
    apply (cover_ok M e0 Q1 HM He cs 1 ltac:(lia) HC x y X1 Y0).
    assert (EE : M * (y + x * e0 + x * y * M) = M * Q1).
    { replace (M * Q1) with (n - e0) by lia. rewrite E. replace d with (1 + x * M) by lia. rewrite De. ring. }
    apply Z.mul_reg_l in EE; [ exact EE | lia ]. }
  assert (He1 : 1 < e) by nia.
  destruct (divisors_mod n F l Hn Hr d ltac:(lia)) as (_ & L1); [ exists e; lia | ].
  destruct (divisors_mod n F l Hn Hr e ltac:(lia)) as (_ & L2); [ exists d; lia | ].
  destruct L1 as [L1|L1]; [ apply (K d e); try lia; exact L1 | ].
  destruct L2 as [L2|L2]; [ apply (K e d); try lia; exact L2 | ].
  destruct L1 as (x & Hx), L2 as (y & Hy), Dn as (z & Hz).
  assert (T : l * (z - x * e + y) = 2).
  { replace (l * (z - x * e + y)) with (z * l - (x * l) * e + y * l) by ring. rewrite <- Hx, <- Hy, <- Hz, E. ring. }
  assert (z - x * e + y <> 0) by (intro Q; rewrite Q in T; lia). nia.
Qed.

Lemma qprime_2 : prime 2.
Proof. apply small_prime; vm_compute; reflexivity. Qed.
Lemma qprime_3 : prime 3.
Proof. apply small_prime; vm_compute; reflexivity. Qed.
Lemma qprime_19 : prime 19.
Proof. apply small_prime; vm_compute; reflexivity. Qed.
Lemma qprime_97 : prime 97.
Proof. apply small_prime; vm_compute; reflexivity. Qed.
Lemma qprime_17 : prime 17.
Proof. apply small_prime; vm_compute; reflexivity. Qed.
Lemma qprime_11 : prime 11.
Proof. apply small_prime; vm_compute; reflexivity. Qed.
Lemma qprime_227393 : prime 227393.
Proof.
  apply (pock_check 227393 [19; 17; 11] 206873 [165007; 22030; 225544]).
  - apply Forall_cons; [ exact qprime_19 | ]. apply Forall_cons; [ exact qprime_17 | ]. apply Forall_cons; [ exact qprime_11 | ]. apply Forall_nil.
  - vm_compute. reflexivity.
Qed.
Lemma qprime_167 : prime 167.
Proof. apply small_prime; vm_compute; reflexivity. Qed.
Lemma qprime_53 : prime 53.
Proof. apply small_prime; vm_compute; reflexivity. Qed.
Lemma qprime_3009341 : prime 3009341.
Proof.
  apply (pock_check 3009341 [167; 53] 745193 [221100; 1498234]).
  - apply Forall_cons; [ exact qprime_167 | ]. apply Forall_cons; [ exact qprime_53 | ]. apply Forall_nil.
  - vm_compute. reflexivity.
Qed.
Lemma qprime_16657 : prime 16657.
Proof. apply small_prime; vm_compute; reflexivity. Qed.
Lemma qprime_766223 : prime 766223.
Proof.
  apply (pock_check 766223 [16657] 9969 [581816]).
  - apply Forall_cons; [ exact qprime_16657 | ]. apply Forall_nil.
  - vm_compute. reflexivity.
Qed.
Lemma qprime_342682509629 : prime 342682509629.
Proof.
  apply (pock_check 342682509629 [766223] 199420104103 [155456165842]).
  - apply Forall_cons; [ exact qprime_766223 | ]. apply Forall_nil.
  - vm_compute. reflexivity.
Qed.
Lemma qprime_66301 : prime 66301.
Proof. apply small_prime; vm_compute; reflexivity. Qed.
Lemma qprime_34819 : prime 34819.
Proof. apply small_prime; vm_compute; reflexivity. Qed.
Lemma qprime_23085345191 : prime 23085345191.
Proof.
  apply (pock_check 23085345191 [66301; 34819] 1024 [14788722111; 15610760170]).
  - apply Forall_cons; [ exact qprime_66301 | ]. apply Forall_cons; [ exact qprime_34819 | ]. apply Forall_nil.
  - vm_compute. reflexivity.
Qed.
Lemma qprime_40426179255361943 : prime 40426179255361943.
Proof.
  apply (pock_check 40426179255361943 [23085345191] 8903381499946397 [38228842872317658]).
  - apply Forall_cons; [ exact qprime_23085345191 | ]. apply Forall_nil.
  - vm_compute. reflexivity.
Qed.

Definition q_orders : list (positive * nat * Z * Z) :=
  [(2%positive, 0%nat, 181709681073901722637330951972001133588410340171829515070372549795146003961539585716195755291692375963310293709091662304773755859649778, 90854840536950861318665475986000566794205170085914757535186274897573001980769792858097877645846187981655146854545831152386877929824889);
   (3%positive, 0%nat, 174033394630288010786525557228625802409478265021036193347446206246153559790718362669058874678277970404820214064851931462535347246915464, 2558762147871237283601798247791777059644025050264440574308781182997481390273741015712293537804801852830026548079910280746136204244771);
   (19%positive, 1%nat, 55872288592835646481396568025242235802244833474885953001418248604460409002764282436844936117959278730554586624854750703676346653203640, 119449953104131138212333023351843937203188150833075398419731241604545178988312864972634883091708250066402963102367075917033221570166817);
   (97%positive, 0%nat, 23282784194141745828278877331873581077735204977340172260274944074391470312588750554505254212172006493412189768641506961961448885339587, 157625464904798019003582723359257864580244828946075919159723277732388208560487171259706994659902208996399736678590641904801351336521792);
   (227393%positive, 0%nat, 56982308878928728653001483489425761711310653465092968890783714684970682779784052822272279157419857117903420084641456970644981137388997, 97125944003859013725229709626221341863438323986339866894025397666101150935260899053016453445163941750305261652219588574914981853234677);
   (3009341%positive, 0%nat, 139212004118824168574497509178343520527510613843293083135733547998370833526120434051965259255920687085786298119648927416750188606223651, 177518440516576872545016378342905462912998749132926626926441306957391590613812982971858468189839227993792226270698126322626669767334987);
   (342682509629%positive, 0%nat, 81720880687318073003645542792541094364787429770786327095934148583066857286859527164253124129664872503996856043984168281192786081366457, 180324727101090095437826385267921855327216943380719233761477685401588887217594839295744329420223948486338481684272305898054998505704820)].
Definition q_F : Z := 49268645052276559353797262054.
Definition q_ell : Z := 40426179255361943.
Definition q_D : Z := 2.
Definition q_beta : Z * Z := (106820314297995744351781809590836411327032488755702614588548625047122093136177836193571823004945132459625466524453285370707773835339563, 89517727621455926872872160833575591556476372940326513529679916383719168058333553488643667555636128472606236068640920953769234217755036).
Definition q_beta_inv : Z := 177827958798154180279527546516269954133629136656223309958330354763471624081269150432948246249731148995641600995457540002081845037878071.
Definition q_cover : list (Z * Z * Z * list Z) :=
  [(256, (-14260988357483239856154813366345272553535067), (-59), [5; 13; 7]);
   (131584, 18214179171226134872806606651249707214169, 19553, [5; 13; 5]);
   (134743040, (-35696679341187462637982079162409757963), (-765497), [11; 5]);
   (68988436992, 32426848502186549410532611752932735, (-9429576121), [11; 11; 61]);
   (282576637923328, 2808312767979763891458501330050, 8292057392972, [7; 13; 7]);
   (151707177311791426306048, 40426179255361943, 40426179255361943, [5; 7; 13]);
   (159076505156889006630291636224, 40426179255361943, 40426179255361943, [5; 7; 13]);
   (651577365122617371157674541977600, 8292057392972, 2808312767979763891458501330050, [13; 7; 17]);
   (333607610942780094032729365492531712, (-9429576121), 32426848502186549410532611752932735, [11; 13]);
   (1366456774421627265158059481057409896448, 765497, 35696679341187462637982079162409757963, [7; 5; 5]);
   (349812934251936579880463227150696933490944, (-5168), (-106677949905847191760347555803153655146138), [7; 5; 11]);
   (89552111168495764449398586150578414973681920, (-15), (-37384032235836984293385312134586169838858253), [13; 7; 13]);
   (674414277751091400251378539564104886788941319, 1, 135275140585864697317386435171999406801897945, [])].

(* reduction with 2^446 = c *)
Definition q_c : Z := Eval compute in 2 ^ 446 - q448.
Definition q_mask : Z := Eval compute in 2 ^ 446 - 1.
Definition q_fold (z : Z) : Z := Z.land z q_mask + Z.shiftr z 446 * q_c.
Definition q_red (z : Z) : Z := q_fold (q_fold (q_fold z)).
Lemma q_fold_ok : forall z, exists k, q_fold z - z = k * q448.
Proof.
  intro z. exists (- Z.shiftr z 446). unfold q_fold. change q_mask with (Z.ones 446).
  rewrite Z.land_ones, Z.shiftr_div_pow2 by lia. pose proof (Z.div_mod z (2 ^ 446) ltac:(lia)) as E.
  change q_c with (2 ^ 446 - q448). set (h := z / 2 ^ 446) in *. set (l := z mod 2 ^ 446) in *. clearbody h l. rewrite E. ring.
Qed.
Lemma q_red_ok : forall z, (q448 | q_red z - z).
Proof.
  intro z. unfold q_red. destruct (q_fold_ok z) as (a & Ha). destruct (q_fold_ok (q_fold z)) as (b & Hb).
  destruct (q_fold_ok (q_fold (q_fold z))) as (c & Hc). exists (a + b + c). lia.
Qed.
Lemma q_red_mod : forall z, q_red z mod q448 = z mod q448.
Proof. intro z. destruct (q_red_ok z) as (k & Hk). replace (q_red z) with (z + k * q448) by lia. apply Z.mod_add. discriminate. Qed.
Fixpoint q_pow (b : Z) (e : positive) : Z :=
  match e with
  | xH => b
  | xO e' => q_red (Z.square (q_pow b e'))
  | xI e' => q_red (q_red (Z.square (q_pow b e')) * b)
  end.
Lemma q_pow_ok : forall b e, q_pow b e mod q448 = b ^ Zpos e mod q448.
Proof.
  intros b e. induction e as [e IH|e IH|]; cbn [q_pow].
  - rewrite Pos2Z.inj_xI. replace (2 * Zpos e + 1) with (Zpos e + Zpos e + 1) by lia.
    rewrite !Z.pow_add_r, Z.pow_1_r by lia. rewrite q_red_mod, <- Z.mul_mod_idemp_l, q_red_mod, Z.square_spec by discriminate.
    rewrite (Z.mul_mod (q_pow b e)), IH by discriminate. rewrite <- Z.mul_mod, Z.mul_mod_idemp_l by discriminate. reflexivity.
  - rewrite Pos2Z.inj_xO. replace (2 * Zpos e) with (Zpos e + Zpos e) by lia. rewrite Z.pow_add_r by lia.
    rewrite q_red_mod, Z.square_spec, (Z.mul_mod (q_pow b e)), IH by discriminate. rewrite <- Z.mul_mod by discriminate. reflexivity.
  - rewrite Z.pow_1_r. reflexivity.
Qed.
(* elements of order f^(k+1): f^(k+1) divides r - 1 *)
Fixpoint q_pows (b : Z) (f : positive) (k : nat) : Z := match k with O => b | S k' => q_pow (q_pows b f k') f end.
Lemma q_pows_ok : forall b f k, q_pows b f k mod q448 = b ^ (Zpos f ^ Z.of_nat k) mod q448.
Proof.
  intros b f. induction k as [|k IH]; cbn [q_pows]; [ change (Zpos f ^ Z.of_nat 0) with 1; rewrite Z.pow_1_r; reflexivity | ].
  rewrite q_pow_ok, Zpower_mod, IH, <- Zpower_mod by reflexivity. rewrite <- Z.pow_mul_r by lia.
  rewrite Nat2Z.inj_succ, Z.pow_succ_r by lia. rewrite (Z.mul_comm (Zpos f)). reflexivity.
Qed.
Definition q_order1 (o : positive * nat * Z * Z) : bool :=
  match o with
  | (f, k, b, u) =>
      let c := q_pows b f k in
      (q_pow c f mod q448 =? 1) && (((c - 1) * u) mod q448 =? 1)
  end.
Lemma zprod_repeat : forall f k, zprod (repeat f k) = f ^ Z.of_nat k.
Proof.
  induction k as [|k IH]; [ reflexivity | ]. cbn [repeat zprod fold_right]. fold (zprod (repeat f k)).
  rewrite IH, Nat2Z.inj_succ, Z.pow_succ_r by lia. reflexivity.
Qed.
Lemma drop_repeat : forall f k c, In c (drop_one (repeat f (S k))) -> c = f ^ Z.of_nat k.
Proof.
  induction k as [|k IH]; intros c H.
  - cbn in H. destruct H as [H|[]]. symmetry. exact H.
  - change (repeat f (S (S k))) with (f :: repeat f (S k)) in H. cbn [drop_one] in H. destruct H as [H|H].
    + rewrite <- H. apply zprod_repeat.
    + apply in_map_iff in H. destruct H as (d & <- & Hd). rewrite (IH d Hd), Nat2Z.inj_succ, Z.pow_succ_r by lia. reflexivity.
Qed.
Lemma q_order1_ok : forall f k b u, prime (Zpos f) -> q_order1 (f, k, b, u) = true ->
  forall r, prime r -> (r | q448) -> (Zpos f ^ Z.of_nat (S k) | r - 1).
Proof.
  intros f k b u Pf H r Pr Dr. unfold q_order1 in H. cbv zeta in H. apply andb_prop in H. destruct H as (H1 & H2).
  apply Z.eqb_eq in H1, H2. rewrite <- zprod_repeat.
  pose proof (q_pows_ok b f (S k)) as E1. pose proof (q_pows_ok b f k) as E2. change (q_pows b f (S k)) with (q_pow (q_pows b f k) f) in E1.
  set (c := q_pows b f k) in *. clearbody c.
  apply (order_divides q448 (repeat (Zpos f) (S k)) b); try assumption.
  - reflexivity.
  - apply Forall_forall. intros x Hx. apply repeat_spec in Hx. subst x. exact Pf.
  - rewrite zprod_repeat, <- E1. exact H1.
  - intros x Hx. apply drop_repeat in Hx. subst x. exists u. etransitivity; [ | exact H2 ].
    rewrite <- (Z.mul_mod_idemp_l (b ^ (Zpos f ^ Z.of_nat k) - 1)), <- (Z.mul_mod_idemp_l (c - 1)) by discriminate.
    rewrite <- Zminus_mod_idemp_l, <- E2, Zminus_mod_idemp_l. reflexivity.
Qed.
Lemma q_orders_ok : forallb q_order1 q_orders = true.
Proof. vm_compute. reflexivity. Qed.
Lemma q_luc_ok : luc_test q_D q448 q_red q_ell q_beta q_beta_inv = true.
Proof. vm_compute. reflexivity. Qed.
Lemma q_cover_ok : cover (q_F * q_ell) (q448 mod (q_F * q_ell)) (q448 / (q_F * q_ell)) 1 q_cover = true.
Proof. vm_compute. reflexivity. Qed.
Lemma q_orders_prime : Forall (fun o => prime (Zpos (fst (fst (fst o))))) q_orders.
Proof.
  apply Forall_cons; [ exact qprime_2 | ]. apply Forall_cons; [ exact qprime_3 | ]. apply Forall_cons; [ exact qprime_19 | ].
  apply Forall_cons; [ exact qprime_97 | ]. apply Forall_cons; [ exact qprime_227393 | ].
  apply Forall_cons; [ exact qprime_3009341 | ]. apply Forall_cons; [ exact qprime_342682509629 | ]. apply Forall_nil.
Qed.
Definition opow (o : positive * nat * Z * Z) : Z := Zpos (fst (fst (fst o))) ^ Z.of_nat (S (snd (fst (fst o)))).
Lemma coprime_product : forall l z, (forall m, In m l -> (m | z)) ->
  ForallOrdPairs rel_prime l -> (zprod l | z).
Proof.
  induction l as [|m l IH]; intros z H P; [ apply Z.divide_1_l | ]. inversion P as [|? ? P1 P2]; subst.
  cbn [zprod fold_right]. fold (zprod l). destruct (IH z (fun x Hx => H x (or_intror Hx)) P2) as (y & Hy).
  assert (RP : rel_prime m (zprod l)).
  { clear - P1. induction P1 as [|x l Hx Hl IH]; [ apply rel_prime_1 || (apply rel_prime_sym; apply rel_prime_1) | ].
    cbn [zprod fold_right]. fold (zprod l). apply rel_prime_mult; assumption. }
  pose proof (H m (or_introl eq_refl)) as D. rewrite Hy, Z.mul_comm in D. apply Gauss in D; [ | exact RP ].
  destruct D as (w & Hw). exists w. rewrite Hy, Hw. ring.
Qed.
Lemma q_order : forall r, prime r -> (r | q448) -> (q_F | r - 1).
Proof.
  intros r Pr Dr.
  assert (E : q_F = zprod (map opow q_orders)) by (vm_compute; reflexivity). rewrite E.
  apply coprime_product.
  - intros m Hm. apply in_map_iff in Hm. destruct Hm as ((((f, k), b), u) & <- & Ho).
    pose proof q_orders_ok as H. rewrite forallb_forall in H. specialize (H _ Ho).
    pose proof q_orders_prime as P. rewrite Forall_forall in P. specialize (P _ Ho). unfold opow. cbn [fst snd] in *.
    apply (q_order1_ok f k b u); assumption.
  - change (map opow q_orders) with (map (fun fk => Zpos (fst fk) ^ Z.of_nat (S (snd fk))) (map (fun o : positive * nat * Z * Z => fst (fst o)) q_orders)).
    change (map (fun o : positive * nat * Z * Z => fst (fst o)) q_orders) with
      [(2%positive, 0%nat); (3%positive, 0%nat); (19%positive, 1%nat); (97%positive, 0%nat); (227393%positive, 0%nat); (3009341%positive, 0%nat); (342682509629%positive, 0%nat)].
    cbn [map fst snd]. repeat (apply FOP_cons; [ repeat (apply Forall_cons; [ apply Zgcd_1_rel_prime; vm_compute; reflexivity | ]); apply Forall_nil | ]). apply FOP_nil.
Qed.
Theorem q448_prime : prime q448.
Proof.
  apply (prime_by_cover q448 q_F q_ell q_cover).
  - reflexivity.
  - reflexivity.
  - reflexivity.
  - apply Zgcd_1_rel_prime. reflexivity.
  - apply Z.mod_divide; [ discriminate | reflexivity ].
  - reflexivity.
  - intros r Pr Dr. split; [ exact (q_order r Pr Dr) | ].
    assert (Or : Z.odd r = true).
    { destruct (Z.odd r) eqn:O; [ reflexivity | exfalso ].
      assert (D2 : (2 | q448)).
      { apply Z.divide_trans with r; [ | exact Dr ]. apply Z.mod_divide; [ lia | ]. rewrite Zmod_odd, O. reflexivity. }
      apply Z.mod_divide in D2; [ | discriminate ]. assert (E2 : q448 mod 2 = 1) by (vm_compute; reflexivity). rewrite E2 in D2. discriminate D2. }
    apply (luc_ok q_D q448 q_red q_red_ok q_ell q_beta q_beta_inv eq_refl qprime_40426179255361943 q_luc_ok r Pr Dr Or).
    intro D2. assert (R1 : 1 < r) by (destruct Pr; assumption). apply Z.divide_pos_le in D2; [ | reflexivity ].
    unfold q_D in D2. assert (E : r = 2) by lia. rewrite E in Or. discriminate Or.
  - exact q_cover_ok.
Qed.
