(* Strong reduction, comparison, parity, and (de)serialisation of field elements. *)
From Coq Require Import ZArith List Bool Lia.
From Verif Require Import SpecField Base Arith Constants32 BigNumber LimbKara LimbMul LimbOps LimbOps2.
From Verif Require Import SpecBytes Bytes.
Import ListNotations.
Open Scope Z_scope.

(* value of a little-endian list of 28-bit limbs *)
Fixpoint v28 (l : list Z) : Z :=
  match l with
  | [] => 0
  | x :: t => x + 2 ^ 28 * v28 t
  end.
Definition r28 (x : Z) : Prop := 0 <= x < 2 ^ 28.

Lemma ev_v28 : forall a, ev a = v28 (limbs a).
Proof.
  intros [x0 x1 x2 x3 x4 x5 x6 x7 x8 x9 x10 x11 x12 x13 x14 x15].
  unfold ev, evr. cbn [limbs v28]. generalize (2 ^ 28). intro r. ring.
Qed.
Lemma bn_le_limbs : forall M a, bn_le M a -> Forall (fun x => 0 <= x <= M) (limbs a).
Proof.
  intros M [x0 x1 x2 x3 x4 x5 x6 x7 x8 x9 x10 x11 x12 x13 x14 x15]. unfold bn_le. intro H.
  cbn [limbs]. repeat constructor; apply H.
Qed.
Lemma limbs_length : forall a, length (limbs a) = 16%nat.
Proof. intros []. reflexivity. Qed.
Lemma of_limbs_ok : forall l, length l = 16%nat -> exists a, of_limbs l = Some a /\ limbs a = l.
Proof.
  intros l H. do 16 (destruct l as [|? l]; [ discriminate | ]). destruct l; [ | discriminate ].
  eexists; split; reflexivity.
Qed.
Lemma of_limbs_limbs : forall a, of_limbs (limbs a) = Some a.
Proof. intros []. reflexivity. Qed.
Lemma pow28_S : forall n, 2 ^ (28 * Z.of_nat (S n)) = 2 ^ 28 * 2 ^ (28 * Z.of_nat n).
Proof. intro n. rewrite <- Z.pow_add_r by lia. f_equal. lia. Qed.
Lemma v28_range : forall l, Forall r28 l -> 0 <= v28 l < 2 ^ (28 * Z.of_nat (length l)).
Proof.
  induction 1 as [|x l Hx Hl IH]; [ simpl; lia | ].
  cbn [length v28]. rewrite pow28_S. unfold r28 in Hx. lia.
Qed.
Lemma as_i64_wrap : forall z, - 2 ^ 63 <= z < 2 ^ 63 -> as_i64 (wrap64 z) = z.
Proof.
  intros z H. unfold as_i64. rewrite wrap64_mod.
  destruct (Z.ltb_spec (z mod 2 ^ 64) (2 ^ 63)) as [L|L].
  - destruct (Z.neg_nonneg_cases z).
    + exfalso. replace z with (z + 2 ^ 64 + (-1) * 2 ^ 64) in L by ring.
      rewrite Z.mod_add, Z.mod_small in L by lia. lia.
    + apply Z.mod_small. lia.
  - destruct (Z.neg_nonneg_cases z).
    + replace z with (z + 2 ^ 64 + (-1) * 2 ^ 64) at 1 by ring.
      rewrite Z.mod_add, Z.mod_small by lia. lia.
    + rewrite Z.mod_small in L by lia. lia.
Qed.

Lemma sub_chain_ok : forall n ms c, length n = length ms ->
  Forall (fun x => 0 <= x <= 2 ^ 32) n -> Forall r28 ms -> -1 <= c <= 16 ->
  exists r c', sub_chain c n ms = Some (r, c') /\ length r = length n /\ Forall r28 r /\
    v28 r + 2 ^ (28 * Z.of_nat (length n)) * c' = c + v28 n - v28 ms.
Proof.
  induction n as [|x n IH]; intros [|m ms] c Hl Hn Hm Hc; try discriminate.
  - exists [], c. cbn [v28 length sub_chain add_chain]. change (2 ^ (28 * Z.of_nat 0)) with 1. repeat split; auto. lia.
  - inversion Hn as [|? ? Hx Hn']; inversion Hm as [|? ? Hm1 Hm']; subst. unfold r28 in Hm1.
    cbn [sub_chain]. unfold wsub_i64. rewrite as_i64_wrap by lia. rewrite chk_i64_ok by lia. cbn [bind].
    rewrite shr28, mask_wrap32.
    destruct (IH ms ((c + (x - m)) / 2 ^ 28)) as (r & c' & H1 & H2 & H3 & H4); auto.
    { split; [ apply Z.div_le_lower_bound; lia | ].
      assert ((c + (x - m)) / 2 ^ 28 < 17) by (apply Z.div_lt_upper_bound; lia). lia. }
    rewrite H1. cbn [bind]. eexists _, c'. split; [ reflexivity | ].
    split; [ simpl; congruence | ]. split.
    + constructor; [ apply Z.mod_pos_bound; lia | exact H3 ].
    + cbn [length v28]. rewrite pow28_S.
      pose proof (Z.div_mod (c + (x - m)) (2 ^ 28) ltac:(lia)).
      generalize dependent (2 ^ (28 * Z.of_nat (length n))). intros P HP.
      rewrite <- Z.mul_assoc. lia.
Qed.
Lemma add_chain_ok : forall n ms c, length n = length ms ->
  Forall r28 n -> Forall r28 ms -> 0 <= c <= 1 ->
  exists r c', add_chain c n ms = Some (r, c') /\ length r = length n /\ Forall r28 r /\
    v28 r + 2 ^ (28 * Z.of_nat (length n)) * c' = c + v28 n + v28 ms.
Proof.
  induction n as [|x n IH]; intros [|m ms] c Hl Hn Hm Hc; try discriminate.
  - exists [], c. cbn [v28 length sub_chain add_chain]. change (2 ^ (28 * Z.of_nat 0)) with 1. repeat split; auto. lia.
  - inversion Hn as [|? ? Hx Hn']; inversion Hm as [|? ? Hm1 Hm']; subst. unfold r28 in Hm1, Hx.
    cbn [add_chain]. unfold wadd64. rewrite wrap64_small by lia. rewrite chk_u64_ok by lia. cbn [bind].
    rewrite shr28, mask_wrap32.
    destruct (IH ms ((c + (x + m)) / 2 ^ 28)) as (r & c' & H1 & H2 & H3 & H4); auto.
    { split; [ apply Z.div_pos; lia | ].
      assert ((c + (x + m)) / 2 ^ 28 < 2) by (apply Z.div_lt_upper_bound; lia). lia. }
    rewrite H1. cbn [bind]. eexists _, c'. split; [ reflexivity | ].
    split; [ simpl; congruence | ]. split.
    + constructor; [ apply Z.mod_pos_bound; lia | exact H3 ].
    + cbn [length v28]. rewrite pow28_S.
      pose proof (Z.div_mod (c + (x + m)) (2 ^ 28) ltac:(lia)).
      generalize dependent (2 ^ (28 * Z.of_nat (length n))). intros P HP.
      rewrite <- Z.mul_assoc. lia.
Qed.

Lemma v28_le : forall M l, 0 <= M -> Forall (fun x => 0 <= x <= M) l ->
  0 <= v28 l <= v28 (repeat M (length l)).
Proof.
  intros M l HM. induction 1 as [|x l Hx Hl IH]; cbn [length v28 repeat]; lia.
Qed.

(* canonical limbs *)
Definition canon (a : bn) : Prop := Forall r28 (limbs a) /\ 0 <= ev a < p448.

Lemma strong_reduce_ok : forall a, bn_le U32W a ->
  exists r, strong_reduce a = Some r /\ Forall r28 (limbs r) /\ ev r = ev a mod p448.
Proof.
  intros a Ha. unfold strong_reduce.
  destruct (weak_reduce_ok a Ha) as (Hw1 & Hw2).
  set (n := weak_reduce a) in *.
  pose proof (bn_le_limbs _ _ Hw1) as HL.
  destruct (sub_chain_ok (limbs n) P_LIMBS 0) as (r & c & H1 & H2 & H3 & H4).
  { rewrite limbs_length. reflexivity. }
  { eapply Forall_impl; [ | exact HL ]. simpl. intros x Hx. lia. }
  { repeat constructor; unfold r28; lia. }
  { lia. }
  rewrite H1. cbn [bind].
  assert (EP : v28 P_LIMBS = p448) by reflexivity.
  rewrite limbs_length in H2, H4. change (28 * Z.of_nat 16) with 448 in H4. rewrite EP in H4.
  assert (B : 0 <= v28 (limbs n) < 2 * p448).
  { destruct (v28_le (2 ^ 28 + 14) (limbs n) ltac:(lia) HL) as (B1 & B2). split; [ exact B1 | ].
    eapply Z.le_lt_trans; [ exact B2 | ]. rewrite limbs_length. vm_compute. reflexivity. }
  pose proof (v28_range r H3) as Br. rewrite H2 in Br. change (28 * Z.of_nat 16) with 448 in Br.
  rewrite <- (ev_v28 n) in *.
  assert (PV : 2 ^ 448 = p448 + 2 ^ 224 + 1) by reflexivity.
  assert (P0 : 2 ^ 224 < p448) by reflexivity.
  assert (P1 : 0 < 2 ^ 224) by reflexivity.
  assert (Hc : c = 0 /\ p448 <= ev n \/ c = -1 /\ ev n < p448).
  { generalize dependent (2 ^ 448). generalize dependent (2 ^ 224). intros t H5 H6 H7 HP HB HV.
    assert (c < 1) by nia. assert (-2 < c) by nia.
    assert (D : c = 0 \/ c = -1) by lia. destruct D as [->| ->]; [ left | right ]; lia. }
  assert (Hm : Z.land (wrap32 c) RADIX_MASK = if c =? 0 then 0 else 2 ^ 28 - 1).
  { destruct Hc as [(-> & _)|(-> & _)]; reflexivity. }
  rewrite Hm.
  set (m := if c =? 0 then 0 else 2 ^ 28 - 1).
  set (ms := [m; m; m; m; m; m; m; m; Z.land m 18446744073709551614; m; m; m; m; m; m; m]).
  assert (Hms : Forall r28 ms /\ v28 ms = if c =? 0 then 0 else p448).
  { unfold ms, m. destruct (c =? 0); split; try reflexivity; repeat constructor; unfold r28; simpl; lia. }
  destruct Hms as (Hms1 & Hms2).
  destruct (add_chain_ok r ms 0) as (r' & c' & K1 & K2 & K3 & K4); auto.
  { lia. }
  rewrite K1. cbn [bind].
  destruct (of_limbs_ok r') as (b & Hb1 & Hb2); [ congruence | ].
  exists b. split; [ exact Hb1 | ]. split; [ rewrite Hb2; exact K3 | ].
  rewrite ev_v28, Hb2. unfold cong in Hw2. rewrite <- Hw2.
  pose proof (v28_range r' K3) as Br'. rewrite K2, H2 in Br'. rewrite H2 in K4.
  change (28 * Z.of_nat 16) with 448 in Br', K4. rewrite Hms2 in K4.
  destruct Hc as [(-> & Hc)|(-> & Hc)]; simpl Z.eqb in K4; cbv iota in K4.
  - apply Zmod_unique with 1.
    + generalize dependent (2 ^ 448). intros t HP HB HV HB' HK.
      assert (c' = 0) by nia. subst c'. lia.
    + generalize dependent (2 ^ 448). intros t HP HB HV HB' HK.
      assert (c' = 0) by nia. subst c'. lia.
  - rewrite Z.mod_small by lia.
    generalize dependent (2 ^ 448). intros t HP HB HV HB' HK.
    assert (c' = 1) by nia. subst c'. lia.
Qed.

Lemma low_bit_ok : forall a, bn_le U32W a -> low_bit a = Some (mask (Z.odd (ev a mod p448))).
Proof.
  intros a Ha. unfold low_bit. destruct (strong_reduce_ok a Ha) as (r & H1 & H2 & H3).
  rewrite H1. cbn [bind]. rewrite <- H3.
  destruct r as [x0 x1 x2 x3 x4 x5 x6 x7 x8 x9 x10 x11 x12 x13 x14 x15].
  rewrite ev_v28. cbn [limbs v28]. f_equal.
  change (Z.land x0 1) with (Z.land x0 (Z.ones 1)). rewrite Z.land_ones by lia. change (2 ^ 1) with 2.
  rewrite Z.odd_add. change (2 ^ 28) with (2 * 2 ^ 27) at 1. rewrite <- !Z.mul_assoc, Z.odd_mul.
  change (Z.odd 2) with false. rewrite andb_false_l, xorb_false_r.
  rewrite Zmod_odd. destruct (Z.odd x0); reflexivity.
Qed.

Lemma lor_zero : forall a b, Z.lor a b = 0 <-> a = 0 /\ b = 0.
Proof. exact Z.lor_eq_0_iff. Qed.
Lemma lor_u28 : forall a b, r28 a -> r28 b -> r28 (Z.lor a b).
Proof.
  intros a b Ha Hb. unfold r28 in *. split; [ apply Z.lor_nonneg; lia | ].
  destruct (Z.eq_dec (Z.lor a b) 0) as [->|Hn]; [ lia | ].
  apply Z.log2_lt_pow2; [ assert (0 <= Z.lor a b) by (apply Z.lor_nonneg; lia); lia | ].
  rewrite Z.log2_lor by lia. apply Z.max_lub_lt.
  - destruct (Z.eq_dec a 0) as [->|]; [ reflexivity | apply Z.log2_lt_pow2; lia ].
  - destruct (Z.eq_dec b 0) as [->|]; [ reflexivity | apply Z.log2_lt_pow2; lia ].
Qed.
Lemma v28_zero : forall l, Forall r28 l -> (v28 l = 0 <-> Forall (fun x => x = 0) l).
Proof.
  induction 1 as [|x l Hx Hl IH]; cbn [v28].
  - split; constructor.
  - pose proof (v28_range l Hl). unfold r28 in Hx. split; intro H0.
    + assert (x = 0 /\ v28 l = 0) as (-> & E) by lia. constructor; [ reflexivity | ]. apply IH. exact E.
    + inversion H0; subst. apply IH in H4. rewrite H4. reflexivity.
Qed.

Definition same_low420 (x y : Z) : bool := ((x - y) mod p448) mod 2 ^ 420 =? 0.

Lemma decaf_equal_ok : forall a b, loose a -> tight b ->
  decaf_equal a b = Some (mask (same_low420 (ev a) (ev b))).
Proof.
  intros a b Ha Hb. unfold decaf_equal.
  destruct (sub_ok a b Ha Hb) as (y & H1 & H2 & H3). rewrite H1. cbn [bind].
  destruct (strong_reduce_ok y (tight_u32 _ H2)) as (r & K1 & K2 & K3). rewrite K1. cbn [bind].
  unfold same_low420. unfold cong in H3. rewrite <- H3, <- K3.
  destruct r as [x0 x1 x2 x3 x4 x5 x6 x7 x8 x9 x10 x11 x12 x13 x14 x15].
  cbv zeta. cbn [limbs] in K2.
  assert (HF : Forall r28 [x0; x1; x2; x3; x4; x5; x6; x7; x8; x9; x10; x11; x12; x13; x14]
               /\ r28 x15).
  { repeat match goal with H : Forall _ (_ :: _) |- _ => inversion H; clear H; subst end.
    split; [ repeat (apply Forall_cons; [ assumption | ]); apply Forall_nil | assumption ]. }
  clear K2. destruct HF as (HF & H15).
  assert (EV : ev (BN x0 x1 x2 x3 x4 x5 x6 x7 x8 x9 x10 x11 x12 x13 x14 x15) =
               v28 [x0; x1; x2; x3; x4; x5; x6; x7; x8; x9; x10; x11; x12; x13; x14] + x15 * 2 ^ 420).
  { unfold ev, evr. cbn [v28]. change (2 ^ 420) with ((2 ^ 28) ^ 15). generalize (2 ^ 28). intro. ring. }
  rewrite EV. rewrite Z.mod_add by discriminate.
  rewrite Z.mod_small.
  2:{ exact (v28_range _ HF). }
  rewrite Z.lor_0_l. rewrite is_zero_mask_ok.
  - f_equal. f_equal. apply eq_true_iff_eq. rewrite !Z.eqb_eq.
    rewrite (v28_zero _ HF). rewrite !lor_zero. split.
    + intro H. repeat (apply Forall_cons; [ tauto | ]); apply Forall_nil.
    + intro H.
      repeat match goal with H : Forall _ (_ :: _) |- _ => inversion H; clear H; subst end.
      tauto.
  - assert (HR : r28 (Z.lor (Z.lor (Z.lor (Z.lor (Z.lor (Z.lor (Z.lor (Z.lor (Z.lor (Z.lor (Z.lor (Z.lor (Z.lor (Z.lor x0 x1) x2) x3) x4) x5) x6) x7) x8) x9) x10) x11) x12) x13) x14)).
    { repeat match goal with H : Forall _ (_ :: _) |- _ => inversion H; clear H; subst end.
      repeat apply lor_u28; assumption. }
    unfold r28 in HR. lia.
Qed.

(* serialisation *)
Lemma lor_shift : forall n a b, 0 <= n -> 0 <= a < 2 ^ n -> Z.lor a (Z.shiftl b n) = a + 2 ^ n * b.
Proof.
  intros n a b Hn Ha. rewrite Z.shiftl_mul_pow2 by lia.
  rewrite <- Z.lxor_lor, <- Z.add_nocarry_lxor; [ ring | | ].
  all: apply Z.bits_inj'; intros i Hi; rewrite Z.land_spec, Z.bits_0;
    destruct (Z.ltb_spec i n);
    [ rewrite Z.mul_pow2_bits_low by lia; apply andb_false_r
    | destruct (Z.eq_dec a 0) as [->|]; [ rewrite Z.bits_0; reflexivity | ];
      rewrite (Z.bits_above_log2 a); [ reflexivity | lia |
        assert (Z.log2 a < n) by (apply Z.log2_lt_pow2; lia); lia ] ].
Qed.

Lemma land_255 : forall x, Z.land x 255 = x mod 256.
Proof. intro x. exact (land_ones_mod 8 x ltac:(lia)). Qed.

Lemma ser_loop_ok : forall k x fill buffer,
  Forall r28 x -> 0 <= fill < 36 -> 0 <= buffer < 2 ^ fill ->
  8 * Z.of_nat k = fill + 28 * Z.of_nat (length x) ->
  ser_loop k x fill buffer = Some (le_bytes k (buffer + 2 ^ fill * v28 x)).
Proof.
  induction k as [|k IH]; intros x fill buffer Hx Hf Hb Hk.
  - reflexivity.
  - cbn [ser_loop le_bytes].
    assert (step : forall x fill buffer, Forall r28 x -> 8 <= fill < 36 -> 0 <= buffer < 2 ^ fill ->
      8 * Z.of_nat (S k) = fill + 28 * Z.of_nat (length x) ->
      (fill0 <- chk_usize (fill - 8) ;;
       r <- ser_loop k x fill0 (Z.shiftr buffer 8) ;;
       Some (Z.land buffer 255 :: r)) =
      Some ((buffer + 2 ^ fill * v28 x) mod 256 :: le_bytes k ((buffer + 2 ^ fill * v28 x) / 256))).
    { clear x fill buffer Hx Hf Hb Hk. intros x fill buffer Hx Hf Hb Hk.
      rewrite chk_usize_ok by lia. cbn [bind].
      assert (E : 2 ^ fill = 256 * 2 ^ (fill - 8)).
      { change 256 with (2 ^ 8). rewrite <- Z.pow_add_r by lia. f_equal. lia. }
      rewrite Z.shiftr_div_pow2 by lia. change (2 ^ 8) with 256.
      rewrite IH; auto; [ | lia | | lia ].
      2:{ rewrite E in Hb. split; [ apply Z.div_pos; lia | apply Z.div_lt_upper_bound; lia ]. }
      cbn [bind]. rewrite land_255. f_equal.
      replace (buffer + 2 ^ fill * v28 x) with (buffer + (2 ^ (fill - 8) * v28 x) * 256) by (rewrite E; ring).
      rewrite Z.mod_add, Z.div_add by lia. reflexivity. }
    destruct x as [|xj x'].
    + apply step; auto. simpl length in Hk. lia.
    + unfold RADIX. destruct (Z.ltb_spec fill 8).
      * inversion Hx as [|? ? Hxj Hx']; subst. unfold r28 in Hxj.
        assert (E : 2 ^ (fill + 28) = 2 ^ fill * 2 ^ 28) by (apply Z.pow_add_r; lia).
        assert (P : 0 < 2 ^ fill <= 2 ^ 8) by (split; [ apply Z.pow_pos_nonneg; lia | apply Z.pow_le_mono_r; lia ]).
        unfold shl64. rewrite wrap64_small.
        2:{ rewrite Z.shiftl_mul_pow2 by lia. nia. }
        rewrite lor_shift by lia.
        rewrite (step x' (fill + 28) (buffer + 2 ^ fill * xj)).
        -- cbn [v28]. replace (buffer + 2 ^ fill * xj + 2 ^ (fill + 28) * v28 x')
             with (buffer + 2 ^ fill * (xj + 2 ^ 28 * v28 x')) by (rewrite E; ring). reflexivity.
        -- exact Hx'.
        -- lia.
        -- rewrite E. nia.
        -- simpl length in Hk. lia.
      * apply step; auto; lia.
Qed.

Lemma dsa_like_serialize_ok : forall a, bn_le U32W a ->
  dsa_like_serialize a = Some (le_bytes 56 (ev a mod p448)).
Proof.
  intros a Ha. unfold dsa_like_serialize.
  destruct (strong_reduce_ok a Ha) as (r & H1 & H2 & H3). rewrite H1. cbn [bind].
  rewrite ser_loop_ok; auto; try (simpl; lia).
  - rewrite <- ev_v28, <- H3. f_equal. f_equal. change (2 ^ 0) with 1. ring.
  - rewrite limbs_length. reflexivity.
Qed.
