(* Value and bounds of the other operations of bignumber.rs. *)
From Coq Require Import ZArith List Bool Lia.
From Verif Require Import SpecField Base Arith Constants32 Karatsuba32 KaratsubaSquare32 BigNumber LimbKara LimbMul.
Import ListNotations.
Open Scope Z_scope.

Definition tight (a : bn) : Prop := bn_le TIGHT a.
Definition loose (a : bn) : Prop := bn_le LOOSE a.
(* any u32 limbs that weak_reduce can take without wrapping *)
Definition U32W : Z := 2 ^ 32 - 16.

Lemma bn_le_mono : forall M N a, M <= N -> bn_le M a -> bn_le N a.
Proof. intros M N [a0 a1 a2 a3 a4 a5 a6 a7 a8 a9 a10 a11 a12 a13 a14 a15] H. unfold bn_le. intros. intuition lia. Qed.
Lemma tight_loose : forall a, tight a -> loose a.
Proof. intros a. apply bn_le_mono. unfold TIGHT, LOOSE. lia. Qed.
Lemma loose_u32 : forall a, loose a -> bn_le U32W a.
Proof. intros a. apply bn_le_mono. unfold LOOSE, U32W. lia. Qed.
Lemma tight_u32 : forall a, tight a -> bn_le U32W a.
Proof. intros. apply loose_u32, tight_loose. assumption. Qed.

(* values modulo p448 *)
Definition cong (x y : Z) : Prop := x mod p448 = y mod p448.

Lemma cong_sub : forall x y k, x = y - p448 * k -> cong x y.
Proof.
  intros x y k ->. unfold cong. replace (y - p448 * k) with (y + (- k) * p448) by ring.
  apply Z.mod_add. discriminate.
Qed.

Lemma mul_ok : forall a b, loose a -> loose b -> tight (mul a b) /\ cong (ev (mul a b)) (ev a * ev b).
Proof.
  intros a b Ha Hb. destruct (karatsuba_mul_spec a b Ha Hb) as (H1 & k & H2).
  split; [ exact H1 | exact (cong_sub _ _ _ H2) ].
Qed.
Lemma square_ok : forall a, loose a -> tight (square a) /\ cong (ev (square a)) (ev a * ev a).
Proof.
  intros a Ha. destruct (karatsuba_square_spec a Ha) as (H1 & k & H2).
  split; [ exact H1 | exact (cong_sub _ _ _ H2) ].
Qed.

Lemma add_raw_ok : forall a b, tight a -> tight b ->
  loose (add_raw a b) /\ ev (add_raw a b) = ev a + ev b.
Proof.
  intros [a0 a1 a2 a3 a4 a5 a6 a7 a8 a9 a10 a11 a12 a13 a14 a15] [b0 b1 b2 b3 b4 b5 b6 b7 b8 b9 b10 b11 b12 b13 b14 b15]. unfold tight, loose, bn_le, TIGHT, LOOSE. intros Ha Hb.
  cbv beta iota delta [add_raw bn_map2].
  assert (W : forall x y, 0 <= x <= TIGHT -> 0 <= y <= TIGHT -> wadd32 x y = x + y).
  { intros x y Hx Hy. unfold wadd32. apply wrap32_small. unfold TIGHT in *. lia. }
  rewrite !W by (unfold TIGHT; intuition lia). split; [ intuition lia | unfold ev, evr; ring ].
Qed.

Lemma div28_u32 : forall x, 0 <= x < 2 ^ 32 -> 0 <= x / 2 ^ 28 <= 15.
Proof.
  intros x H. split; [ apply Z.div_pos; lia | ].
  assert (x / 2 ^ 28 < 16) by (apply Z.div_lt_upper_bound; lia). lia.
Qed.
Lemma wr_limb : forall x y, 0 <= y < 2 ^ 32 ->
  wadd32 (Z.land x RADIX_MASK) (Z.shiftr y RADIX) = x mod 2 ^ 28 + y / 2 ^ 28
  /\ 0 <= x mod 2 ^ 28 + y / 2 ^ 28 <= 2 ^ 28 + 14.
Proof.
  intros x y Hy. pose proof (mod28_bd x). pose proof (div28_u32 y Hy).
  rewrite radix_mod. unfold RADIX. rewrite shr28. unfold wadd32. rewrite wrap32_small by lia. lia.
Qed.

(* exact form of weak_reduce *)
Definition wred (n : bn) : bn :=
  let '(BN a0 a1 a2 a3 a4 a5 a6 a7 a8 a9 a10 a11 a12 a13 a14 a15) := n in
  let t := a15 / 2 ^ 28 in
  BN (a0 mod 2 ^ 28 + t) (a1 mod 2 ^ 28 + a0 / 2 ^ 28) (a2 mod 2 ^ 28 + a1 / 2 ^ 28) (a3 mod 2 ^ 28 + a2 / 2 ^ 28) (a4 mod 2 ^ 28 + a3 / 2 ^ 28) (a5 mod 2 ^ 28 + a4 / 2 ^ 28) (a6 mod 2 ^ 28 + a5 / 2 ^ 28) (a7 mod 2 ^ 28 + a6 / 2 ^ 28) ((a8 + t) mod 2 ^ 28 + a7 / 2 ^ 28) (a9 mod 2 ^ 28 + (a8 + t) / 2 ^ 28) (a10 mod 2 ^ 28 + a9 / 2 ^ 28) (a11 mod 2 ^ 28 + a10 / 2 ^ 28) (a12 mod 2 ^ 28 + a11 / 2 ^ 28) (a13 mod 2 ^ 28 + a12 / 2 ^ 28) (a14 mod 2 ^ 28 + a13 / 2 ^ 28) (a15 mod 2 ^ 28 + a14 / 2 ^ 28).

Lemma weak_reduce_exact : forall n, bn_le U32W n ->
  weak_reduce n = wred n /\ bn_le (2 ^ 28 + 14) (wred n).
Proof.
  intros [a0 a1 a2 a3 a4 a5 a6 a7 a8 a9 a10 a11 a12 a13 a14 a15]. unfold bn_le at 1. unfold U32W. intros (H0 & H1 & H2 & H3 & H4 & H5 & H6 & H7 & H8 & H9 & H10 & H11 & H12 & H13 & H14 & H15).
  cbv beta iota zeta delta [weak_reduce wred].
  replace (wrap32 (Z.shiftr a15 RADIX)) with (a15 / 2 ^ 28).
  2:{ unfold RADIX. rewrite shr28. pose proof (div28_u32 a15). rewrite wrap32_small by lia. reflexivity. }
  pose proof (div28_u32 a15 ltac:(lia)) as Ht. set (t := a15 / 2 ^ 28) in *.
  replace (wadd32 a8 t) with (a8 + t) by (unfold wadd32; rewrite wrap32_small by lia; reflexivity).
  replace (wadd32 (Z.land a0 RADIX_MASK) t) with (a0 mod 2 ^ 28 + t).
  2:{ rewrite radix_mod. unfold wadd32. pose proof (mod28_bd a0). rewrite wrap32_small by lia. reflexivity. }
  destruct (wr_limb a1 a0 ltac:(lia)) as (-> & W1).
  destruct (wr_limb a2 a1 ltac:(lia)) as (-> & W2).
  destruct (wr_limb a3 a2 ltac:(lia)) as (-> & W3).
  destruct (wr_limb a4 a3 ltac:(lia)) as (-> & W4).
  destruct (wr_limb a5 a4 ltac:(lia)) as (-> & W5).
  destruct (wr_limb a6 a5 ltac:(lia)) as (-> & W6).
  destruct (wr_limb a7 a6 ltac:(lia)) as (-> & W7).
  destruct (wr_limb (a8 + t) a7 ltac:(lia)) as (-> & W8).
  destruct (wr_limb a9 (a8 + t) ltac:(lia)) as (-> & W9).
  destruct (wr_limb a10 a9 ltac:(lia)) as (-> & W10).
  destruct (wr_limb a11 a10 ltac:(lia)) as (-> & W11).
  destruct (wr_limb a12 a11 ltac:(lia)) as (-> & W12).
  destruct (wr_limb a13 a12 ltac:(lia)) as (-> & W13).
  destruct (wr_limb a14 a13 ltac:(lia)) as (-> & W14).
  destruct (wr_limb a15 a14 ltac:(lia)) as (-> & W15).
  split; [ reflexivity | ].
  pose proof (mod28_bd a0). unfold bn_le. intuition lia.
Qed.

Lemma wred_value : forall n, exists k, ev (wred n) = ev n - p448 * k.
Proof.
  intros [a0 a1 a2 a3 a4 a5 a6 a7 a8 a9 a10 a11 a12 a13 a14 a15]. cbv beta iota zeta delta [wred].
  exists (a15 / 2 ^ 28).
  rewrite ?Z.mod_eq by discriminate.
  generalize ((a8 + a15 / 2 ^ 28) / 2 ^ 28). intro q8.
  generalize (a0 / 2 ^ 28). intro q0. generalize (a1 / 2 ^ 28). intro q1. generalize (a2 / 2 ^ 28). intro q2. generalize (a3 / 2 ^ 28). intro q3. generalize (a4 / 2 ^ 28). intro q4. generalize (a5 / 2 ^ 28). intro q5. generalize (a6 / 2 ^ 28). intro q6. generalize (a7 / 2 ^ 28). intro q7. generalize (a9 / 2 ^ 28). intro q9. generalize (a10 / 2 ^ 28). intro q10. generalize (a11 / 2 ^ 28). intro q11. generalize (a12 / 2 ^ 28). intro q12. generalize (a13 / 2 ^ 28). intro q13. generalize (a14 / 2 ^ 28). intro q14. generalize (a15 / 2 ^ 28). intro q15.
  change p448 with ((2 ^ 28) ^ 16 - (2 ^ 28) ^ 8 - 1). unfold ev, evr. generalize (2 ^ 28). intro r. ring.
Qed.

Lemma weak_reduce_ok : forall n, bn_le U32W n ->
  bn_le (2 ^ 28 + 14) (weak_reduce n) /\ cong (ev (weak_reduce n)) (ev n).
Proof.
  intros n H. destruct (weak_reduce_exact n H) as (-> & H2). split; [ exact H2 | ].
  destruct (wred_value n) as (k & Hk). exact (cong_sub _ _ _ Hk).
Qed.
Lemma wr_tight : forall n, bn_le (2 ^ 28 + 14) n -> tight n.
Proof. intro n. apply bn_le_mono. unfold TIGHT. lia. Qed.

Lemma add_raw_u32 : forall a b, loose a -> loose b ->
  bn_le U32W (add_raw a b) /\ ev (add_raw a b) = ev a + ev b.
Proof.
  intros [a0 a1 a2 a3 a4 a5 a6 a7 a8 a9 a10 a11 a12 a13 a14 a15] [b0 b1 b2 b3 b4 b5 b6 b7 b8 b9 b10 b11 b12 b13 b14 b15]. unfold loose, bn_le, LOOSE, U32W. intros Ha Hb.
  cbv beta iota delta [add_raw bn_map2].
  assert (W : forall x y, 0 <= x <= LOOSE -> 0 <= y <= LOOSE -> wadd32 x y = x + y).
  { intros x y Hx Hy. unfold wadd32. apply wrap32_small. unfold LOOSE in *. lia. }
  rewrite !W by (unfold LOOSE; intuition lia). split; [ intuition lia | unfold ev, evr; ring ].
Qed.
Lemma add_ok : forall a b, loose a -> loose b -> tight (add a b) /\ cong (ev (add a b)) (ev a + ev b).
Proof.
  intros a b Ha Hb. destruct (add_raw_u32 a b Ha Hb) as (H1 & H2).
  destruct (weak_reduce_ok _ H1) as (H3 & H4). split; [ apply wr_tight; exact H3 | ].
  unfold add. rewrite <- H2. exact H4.
Qed.

Lemma wsub_wadd : forall x y c, 0 <= x - y + c < 2 ^ 32 -> wadd32 (wsub32 x y) c = x - y + c.
Proof.
  intros x y c H. unfold wadd32, wsub32. rewrite !wrap32_mod.
  rewrite Z.add_mod_idemp_l by lia. apply Z.mod_small. exact H.
Qed.
(* x - y + amt * p, limb by limb *)
Lemma bias_sub : forall a b amt M, 0 < amt <= 4 ->
  bn_le LOOSE a -> bn_le M b -> M + 2 * amt <= amt * 2 ^ 28 ->
  exists r, bias (sub_raw a b) amt = Some r /\ bn_le U32W r /\ ev r = ev a - ev b + amt * p448.
Proof.
  intros [a0 a1 a2 a3 a4 a5 a6 a7 a8 a9 a10 a11 a12 a13 a14 a15] [b0 b1 b2 b3 b4 b5 b6 b7 b8 b9 b10 b11 b12 b13 b14 b15] amt M Hamt Ha Hb HM.
  unfold bias. rewrite chk_u32_ok by (unfold RADIX_MASK; lia). cbn [bind].
  rewrite chk_u32_ok by (unfold RADIX_MASK; lia). cbn [bind].
  eexists; split; [ reflexivity | ].
  cbv beta iota delta [sub_raw bn_map2].
  unfold bn_le, LOOSE in Ha. unfold bn_le in Hb. unfold RADIX_MASK.
  rewrite !wsub_wadd by intuition lia.
  split; [ unfold bn_le, U32W; intuition lia | ].
  change p448 with ((2 ^ 28) ^ 16 - (2 ^ 28) ^ 8 - 1).
  change 0xfffffff with (2 ^ 28 - 1). unfold ev, evr. generalize (2 ^ 28). intro r. ring.
Qed.
Lemma sub_x_bias_ok : forall a b amt M, 0 < amt <= 4 ->
  loose a -> bn_le M b -> M + 2 * amt <= amt * 2 ^ 28 ->
  exists r, sub_x_bias a b amt = Some r /\ tight r /\ cong (ev r) (ev a - ev b).
Proof.
  intros a b amt M Hamt Ha Hb HM. destruct (bias_sub a b amt M Hamt Ha Hb HM) as (r & H1 & H2 & H3).
  unfold sub_x_bias. rewrite H1. cbn [bind]. eexists; split; [ reflexivity | ].
  destruct (weak_reduce_ok r H2) as (H4 & H5). split; [ apply wr_tight; exact H4 | ].
  unfold cong in *. rewrite H5, H3. apply Z.mod_add. discriminate.
Qed.
Lemma sub_ok : forall a b, loose a -> tight b ->
  exists r, sub a b = Some r /\ tight r /\ cong (ev r) (ev a - ev b).
Proof.
  intros a b Ha Hb. apply (sub_x_bias_ok a b 2 TIGHT); try assumption; unfold TIGHT; lia.
Qed.
Lemma neg_ok : forall a, tight a -> exists r, neg a = Some r /\ tight r /\ cong (ev r) (- ev a).
Proof.
  intros a Ha. change (neg a) with (sub BIG_ZERO a).
  destruct (sub_ok BIG_ZERO a) as (r & H1 & H2 & H3); [ | exact Ha | ].
  - unfold loose, bn_le, LOOSE, BIG_ZERO. intuition lia.
  - exists r. split; [ exact H1 | ]. split; [ exact H2 | ]. exact H3.
Qed.
