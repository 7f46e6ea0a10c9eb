(* dsa_like_deserialize: value, limbs and outcome of the range test. *)
From Coq Require Import ZArith List Bool Lia.
From Verif Require Import SpecField Base Arith Constants32 BigNumber LimbKara LimbMul LimbOps LimbOps2.
From Verif Require Import SpecBytes Bytes LimbSer.
Import ListNotations.
Open Scope Z_scope.

Fixpoint digits28 (n : nat) (z : Z) : list Z :=
  match n with
  | O => []
  | S n' => z mod 2 ^ 28 :: digits28 n' (z / 2 ^ 28)
  end.
Lemma digits28_r28 : forall n z, Forall r28 (digits28 n z).
Proof.
  induction n; intro z; constructor; [ apply Z.mod_pos_bound; lia | apply IHn ].
Qed.
Lemma digits28_length : forall n z, length (digits28 n z) = n.
Proof. induction n; intro z; simpl; auto. Qed.
Lemma v28_digits28 : forall n z, v28 (digits28 n z) = z mod 2 ^ (28 * Z.of_nat n).
Proof.
  induction n; intro z; cbn [digits28 v28].
  - change (2 ^ (28 * Z.of_nat 0)) with 1. rewrite Z.mod_1_r. reflexivity.
  - rewrite IHn, pow28_S. rewrite Z.rem_mul_r; [ reflexivity | lia | ].
    apply Z.pow_pos_nonneg; lia.
Qed.

(* the running "scarry" of the range test *)
Fixpoint range_carry (c : Z) (ns ms : list Z) : Z :=
  match ns, ms with
  | n :: ns', m :: ms' => range_carry ((c + n - m) mod 2 ^ 32 / 256 * 4) ns' ms'
  | _, _ => c
  end.

Lemma dsa_fill_ok : forall fuel pre rest tail fill buffer,
  (length pre + length rest = 56)%nat -> bytes rest -> 0 <= fill < 36 -> 0 <= buffer < 2 ^ fill ->
  (length rest < fuel)%nat ->
  exists pre' rest' fill' buffer',
    dsa_fill fuel (pre ++ rest ++ tail) 0 fill (Z.of_nat (length pre)) buffer
      = Some (fill', Z.of_nat (length pre'), buffer') /\
    pre ++ rest = pre' ++ rest' /\ bytes rest' /\
    buffer' + 2 ^ fill' * le_val rest' = buffer + 2 ^ fill * le_val rest /\
    0 <= buffer' < 2 ^ fill' /\ 0 <= fill' < 36 /\ (28 <= fill' \/ rest' = []) /\
    fill' + 8 * Z.of_nat (length rest') = fill + 8 * Z.of_nat (length rest).
Proof.
  induction fuel as [|fuel IH]; intros pre rest tail fill buffer Hl Hr Hf Hb Hfu; [ lia | ].
  cbn [dsa_fill]. unfold RADIX, FIELD_BYTES.
  destruct (Z.ltb_spec fill 28); cbn [andb].
  2:{ exists pre, rest, fill, buffer. repeat split; auto; lia. }
  destruct rest as [|b rest].
  - simpl length in Hl. destruct (Z.ltb_spec (Z.of_nat (length pre)) 56); [ lia | ].
    exists pre, [], fill, buffer. repeat split; auto; lia.
  - simpl length in Hl, Hfu. destruct (Z.ltb_spec (Z.of_nat (length pre)) 56); [ | lia ].
    cbn [app]. rewrite znth_app_r. cbn [bind].
    change (Z.lnot 0) with (-1). rewrite Z.land_m1_r.
    replace (if Z.of_nat (length pre) =? 56 - 1 then b else b) with b by (destruct (_ =? _); reflexivity).
    inversion Hr as [|? ? Hbb Hrr]; subst. unfold byte in Hbb.
    assert (E : 2 ^ (fill + 8) = 2 ^ fill * 2 ^ 8) by (apply Z.pow_add_r; lia).
    assert (P : 0 < 2 ^ fill <= 2 ^ 28) by (split; [ apply Z.pow_pos_nonneg; lia | apply Z.pow_le_mono_r; lia ]).
    unfold shl64. rewrite wrap64_small.
    2:{ rewrite Z.shiftl_mul_pow2 by lia. nia. }
    rewrite lor_shift by lia.
    destruct (IH (pre ++ [b]) rest tail (fill + 8) (buffer + 2 ^ fill * b))
      as (pre' & rest' & fill' & buffer' & H1 & H2 & H3 & H4 & H5 & H6 & H7 & H8).
    { rewrite app_length. simpl. lia. }
    { exact Hrr. }
    { lia. }
    { rewrite E. nia. }
    { lia. }
    exists pre', rest', fill', buffer'.
    rewrite app_length, Nat2Z.inj_add in H1. change (Z.of_nat (length [b])) with 1 in H1.
    rewrite <- !app_assoc in H1. cbn [app] in H1.
    rewrite <- app_assoc in H2. cbn [app] in H2.
    split; [ exact H1 | ]. split; [ exact H2 | ]. split; [ exact H3 | ].
    split. { rewrite H4. cbn [le_val]. rewrite E. ring. }
    split; [ exact H5 | ]. split; [ exact H6 | ]. split; [ exact H7 | ].
    rewrite H8. simpl length. lia.
Qed.

Lemma dsa_loop_ok : forall ms i pre rest tail fill buffer scarry,
  (length pre + length rest = 56)%nat -> bytes rest -> 0 <= fill < 28 -> 0 <= buffer < 2 ^ fill ->
  i + Z.of_nat (length ms) = 16 ->
  fill + 8 * Z.of_nat (length rest) = 28 * Z.of_nat (length ms) ->
  0 <= scarry < 2 ^ 32 -> (ms = [] -> buffer = 0) ->
  dsa_loop ms i (pre ++ rest ++ tail) 0 fill (Z.of_nat (length pre)) buffer scarry =
  let d := digits28 (length ms) (buffer + 2 ^ fill * le_val rest) in
  Some (d, 0, range_carry scarry d ms).
Proof.
  induction ms as [|m ms IH]; intros i pre rest tail fill buffer scarry Hl Hr Hf Hb Hi Ht Hs H0.
  - cbn. rewrite H0 by reflexivity. reflexivity.
  - cbn [dsa_loop].
    destruct (dsa_fill_ok 57 pre rest tail fill buffer)
      as (pre' & rest' & fill' & buffer' & H1 & H2 & H3 & H4 & H5 & H6 & H7 & H8);
      [ exact Hl | exact Hr | lia | exact Hb | lia | ].
    rewrite H1. cbn [bind]. unfold RADIX.
    simpl length in Hi, Ht.
    assert (F : 28 <= fill').
    { destruct H7 as [H7|H7]; [ exact H7 | ]. subst rest'. simpl length in H8. lia. }
    assert (E : 2 ^ fill' = 2 ^ 28 * 2 ^ (fill' - 28)).
    { rewrite <- Z.pow_add_r by lia. f_equal. lia. }
    rewrite chk_usize_ok by lia. cbn [bind].
    assert (En : (if i >=? N_LIMBS - 1 then wrap32 buffer' else wrap32 (Z.land buffer' (2 ^ 28 - 1)))
                 = buffer' mod 2 ^ 28).
    { change (2 ^ 28 - 1) with RADIX_MASK. rewrite radix_mod. pose proof (mod28_bd buffer').
      unfold N_LIMBS. destruct (i >=? 16 - 1) eqn:G.
      - apply Z.geb_le in G. assert (length ms = 0%nat) by lia.
        assert (fill' = 28) by lia. subst fill'.
        rewrite (Z.mod_small buffer') by exact H5. apply wrap32_small. lia.
      - apply wrap32_small. lia. }
    rewrite En.
    set (V := buffer + 2 ^ fill * le_val rest) in *.
    assert (EV : V mod 2 ^ 28 = buffer' mod 2 ^ 28 /\
                 V / 2 ^ 28 = buffer' / 2 ^ 28 + 2 ^ (fill' - 28) * le_val rest').
    { rewrite <- H4, E. replace (2 ^ 28 * 2 ^ (fill' - 28) * le_val rest')
        with (2 ^ (fill' - 28) * le_val rest' * 2 ^ 28) by ring.
      rewrite Z.mod_add, Z.div_add by lia. split; reflexivity. }
    destruct EV as (EV1 & EV2).
    unfold wsub32, wadd32. rewrite !wrap32_mod, Z.shiftr_div_pow2 by lia. change (2 ^ 8) with 256.
    rewrite (Z.mod_small scarry) by exact Hs.
    assert (W : forall z, 0 <= z mod 2 ^ 32 / 256 * 4 < 2 ^ 32).
    { intro z. pose proof (Z.mod_pos_bound z (2 ^ 32) ltac:(lia)).
      assert (0 <= z mod 2 ^ 32 / 256 < 2 ^ 24) by
        (split; [ apply Z.div_pos; lia | apply Z.div_lt_upper_bound; lia ]). lia. }
    rewrite Zminus_mod_idemp_l.
    rewrite chk_u32_ok by apply W. cbn [bind].
    rewrite shr28.
    rewrite app_assoc, H2, <- app_assoc.
    rewrite IH.
    + cbn [bind length digits28 range_carry]. rewrite EV1, EV2. reflexivity.
    + rewrite <- app_length, <- H2, app_length. exact Hl.
    + exact H3.
    + lia.
    + split; [ apply Z.div_pos; lia | apply Z.div_lt_upper_bound; lia ].
    + lia.
    + lia.
    + apply W.
    + intros ->. simpl length in Ht. apply Z.div_small. assert (fill' = 28) by lia. subst fill'. exact H5.
Qed.

(* whether the range test accepts the integer y read from the 56 bytes *)
Definition range_ok (y : Z) : bool := negb (range_carry 0 (digits28 16 y) MODULUS =? 0).

Lemma range_carry_bd : forall ns ms c, 0 <= c < 2 ^ 32 -> 0 <= range_carry c ns ms < 2 ^ 32.
Proof.
  induction ns as [|n ns IH]; intros [|m ms] c Hc; cbn [range_carry]; auto.
  apply IH. pose proof (Z.mod_pos_bound (c + n - m) (2 ^ 32) ltac:(lia)).
  assert (0 <= (c + n - m) mod 2 ^ 32 / 256 < 2 ^ 24) by
        (split; [ apply Z.div_pos; lia | apply Z.div_lt_upper_bound; lia ]). lia.
Qed.

Lemma r28_tight : forall a, Forall r28 (limbs a) -> tight a.
Proof.
  intros [x0 x1 x2 x3 x4 x5 x6 x7 x8 x9 x10 x11 x12 x13 x14 x15] H. cbn [limbs] in H.
  repeat match goal with H : Forall _ (_ :: _) |- _ => inversion H; clear H; subst end.
  unfold r28, tight, bn_le, TIGHT in *. repeat split; lia.
Qed.

Lemma dsa_like_deserialize_ok : forall src tail, length src = 56%nat -> bytes src ->
  exists n, dsa_like_deserialize (src ++ tail) 0 = Some (n, mask (range_ok (le_val src))) /\
    Forall r28 (limbs n) /\ ev n = le_val src.
Proof.
  intros src tail Hl Hb. unfold dsa_like_deserialize.
  pose proof (dsa_loop_ok MODULUS 0 [] src tail 0 0 0) as H.
  cbn [app] in H. change (Z.of_nat (length (@nil Z))) with 0 in H.
  rewrite H; clear H;
    [ | exact Hl | exact Hb | lia | change (2 ^ 0) with 1; lia | reflexivity
      | rewrite Hl; reflexivity | lia | discriminate ].
  cbv zeta. cbn [bind]. change (length MODULUS) with 16%nat.
  replace (0 + 2 ^ 0 * le_val src) with (le_val src) by (change (2 ^ 0) with 1; ring).
  destruct (of_limbs_ok (digits28 16 (le_val src)) (digits28_length _ _)) as (n & H1 & H2).
  rewrite H1. cbn [bind]. exists n. split.
  - f_equal. f_equal. unfold range_ok.
    pose proof (range_carry_bd (digits28 16 (le_val src)) MODULUS 0 ltac:(lia)).
    rewrite !is_zero_mask_ok, !wrap32_small by (try apply wrap32_range; lia).
    rewrite not_mask. change (0 =? 0) with true. destruct (negb _); reflexivity.
  - rewrite ev_v28, H2. split; [ apply digits28_r28 | ].
    rewrite v28_digits28. apply Z.mod_small.
    pose proof (le_val_range src Hb) as R. rewrite Hl in R. exact R.
Qed.
