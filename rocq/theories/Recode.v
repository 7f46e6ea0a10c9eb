(* extended_point.rs: recode_wnaf. *)
From Coq Require Import ZArith Znumtheory List Bool Lia.
From Verif Require Import SpecScalar Base Arith Bytes Constants32 ScalarModel Niels ExtendedPoint ScalarProofs PointMul.
Import ListNotations.
Open Scope Z_scope.

(* signed digits *)
Fixpoint dsum (ds : list smvt) : Z :=
  match ds with
  | [] => 0
  | d :: t => addend d * 2 ^ power d + dsum t
  end.
Definition digit_ok (tb : Z) (d : smvt) : Prop := Z.odd (addend d) = true /\ - 2 ^ (tb + 1) < addend d < 2 ^ (tb + 1).
(* powers fall by at least g and stay nonnegative *)
Fixpoint spaced (g : Z) (ds : list smvt) : Prop :=
  match ds with
  | [] => True
  | d :: t => 0 <= power d /\ match t with [] => True | d' :: _ => power d' + g <= power d end /\ spaced g t
  end.
Lemma spaced_len : forall g ds, 0 < g -> spaced g ds ->
  match ds with [] => True | d :: t => g * Z.of_nat (length t) <= power d end.
Proof.
  intros g. induction ds as [|d t IH]; intros Hg H; [ exact I | ]. cbn [spaced] in H. destruct H as (H0 & H1 & H2).
  specialize (IH Hg H2). destruct t as [|d' t]; [ cbn [length]; lia | ].
  cbn [length] in *. lia.
Qed.

Lemma land_bit : forall x k, 0 <= k -> (Z.land x (2 ^ k) =? 0) = negb (Z.testbit x k).
Proof.
  intros x k Hk. destruct (Z.testbit x k) eqn:E; cbn [negb].
  - apply Z.eqb_neq. intro C. apply (f_equal (fun z => Z.testbit z k)) in C.
    rewrite Z.land_spec, Z.pow2_bits_true, E, Z.bits_0 in C by lia. discriminate.
  - apply Z.eqb_eq. apply Z.bits_inj'. intros n Hn. rewrite Z.land_spec, Z.pow2_bits_eqb, Z.bits_0 by lia.
    destruct (Z.eqb_spec k n) as [<-|]; [ rewrite E; reflexivity | apply andb_false_r ].
Qed.
Lemma tz_loop_ok : forall fuel n r, 0 < n < 2 ^ Z.of_nat fuel ->
  exists t m, tz_loop fuel n r = Some (r + t) /\ 0 <= t /\ n = 2 ^ t * (2 * m + 1) /\ 0 <= m.
Proof.
  induction fuel as [|f IH]; intros n r Hn; [ change (2 ^ Z.of_nat 0) with 1 in Hn; lia | ].
  cbn [tz_loop]. rewrite Nat2Z.inj_succ, Z.pow_succ_r in Hn by lia.
  pose proof (Z.div_mod n 2 ltac:(lia)) as D. pose proof (Z.mod_pos_bound n 2 ltac:(lia)) as B.
  destruct (Z.eqb_spec (n mod 2) 0) as [E|E].
  - destruct (IH (n / 2) (r + 1) ltac:(lia)) as (t & m & H1 & H2 & H3 & H4).
    exists (t + 1), m. split; [ rewrite H1; f_equal; lia | ]. split; [ lia | ]. split; [ | exact H4 ].
    rewrite Z.pow_add_r by lia. change (2 ^ 1) with 2. rewrite D, E, H3 at 1. ring.
  - exists 0, (n / 2). split; [ f_equal; lia | ]. split; [ lia | ]. split; [ | lia ].
    change (2 ^ 0) with 1. lia.
Qed.
Lemma tz_ok : forall n, 0 < n < 2 ^ 32 ->
  exists t m, trailing_zeroes_32 n = Some t /\ 0 <= t /\ n = 2 ^ t * (2 * m + 1) /\ 0 <= m.
Proof.
  intros n Hn. unfold trailing_zeroes_32. destruct (Z.eqb_spec n 0); [ lia | ].
  destruct (tz_loop_ok 32 n 0) as (t & m & H); [ exact Hn | ]. exists t, m. exact H.
Qed.
Theorem trailing_zeroes : trailing_zeroes_32 0 = Some 32 /\
  forall n, 0 < n < 2 ^ 32 -> exists t, trailing_zeroes_32 n = Some t /\ 0 <= t < 32 /\ n mod 2 ^ t = 0 /\ n mod 2 ^ (t + 1) <> 0.
Proof.
  split; [ reflexivity | ]. intros n Hn. destruct (tz_ok n Hn) as (t & m & H1 & H2 & H3 & H4). exists t. split; [ exact H1 | ].
  assert (P : 0 < 2 ^ t) by (apply Z.pow_pos_nonneg; lia).
  split; [ | split ].
  - split; [ exact H2 | ]. apply (Z.pow_lt_mono_r_iff 2); [ lia | lia | ]. nia.
  - rewrite H3, Z.mul_comm. apply Z.mod_mul. lia.
  - rewrite Z.pow_add_r by lia. change (2 ^ 1) with 2. rewrite H3, Z.mul_mod_distr_l by lia.
    replace (2 * m + 1) with (1 + m * 2) by ring. rewrite Z.mod_add by lia. change (1 mod 2) with 1. lia.
Qed.

(* the digit taken from an odd number *)
Definition wdelta (tb o : Z) : Z :=
  if negb (Z.land o (2 ^ (tb + 1)) =? 0) then Z.land o (2 ^ (tb + 1) - 1) - 2 ^ (tb + 1) else Z.land o (2 ^ (tb + 1) - 1).
Lemma wdelta_ok : forall tb o, 1 <= tb -> 0 <= o -> Z.odd o = true ->
  Z.odd (wdelta tb o) = true /\ - 2 ^ (tb + 1) < wdelta tb o < 2 ^ (tb + 1) /\
  (exists k, o - wdelta tb o = 2 ^ (tb + 2) * k) /\ (wdelta tb o <= o) /\
  (wdelta tb o <= 0 -> 2 ^ (tb + 1) < o).
Proof.
  intros tb o Ht Ho Hodd. unfold wdelta. rewrite land_bit, negb_involutive by lia. rewrite land_ones_mod by lia.
  assert (P : 2 ^ (tb + 1) = 2 * 2 ^ tb) by (rewrite Z.pow_add_r by lia; change (2 ^ 1) with 2; ring).
  assert (P2 : 2 ^ (tb + 2) = 4 * 2 ^ tb) by (rewrite Z.pow_add_r by lia; change (2 ^ 2) with 4; ring).
  assert (P0 : 0 < 2 ^ tb) by (apply Z.pow_pos_nonneg; lia).
  set (M := 2 ^ (tb + 1)) in *.
  pose proof (Z.mod_pos_bound o M ltac:(lia)) as B. pose proof (Z.div_mod o M ltac:(lia)) as D.
  assert (Hb : Z.testbit o (tb + 1) = Z.odd (o / M)).
  { unfold M. rewrite <- Z.bit0_odd, Z.div_pow2_bits by lia. f_equal. }
  assert (Hq : 0 <= o / M) by (apply Z.div_pos; lia).
  assert (Od : Z.odd (o mod M) = true).
  { replace o with (o mod M + 2 * (2 ^ tb * (o / M))) in Hodd at 1 by (rewrite D at 3; rewrite P; ring).
    rewrite Z.odd_add_mul_2 in Hodd. exact Hodd. }
  assert (N0 : o mod M <> 0) by (intro C; rewrite C in Od; discriminate).
  pose proof (Z.div_mod (o / M) 2 ltac:(lia)) as D2. rewrite Zmod_odd in D2.
  rewrite Hb. destruct (Z.odd (o / M)).
  - assert (1 <= o / M) by lia.
    split; [ rewrite P; replace (o mod (2 * 2 ^ tb) - 2 * 2 ^ tb) with (o mod (2 * 2 ^ tb) + 2 * - 2 ^ tb) by ring; rewrite Z.odd_add_mul_2, <- P; exact Od | ].
    split; [ lia | ]. split; [ exists (o / M / 2 + 1); rewrite P2; nia | ]. split; [ nia | intros; nia ].
  - split; [ exact Od | ]. split; [ lia | ]. split; [ exists (o / M / 2); rewrite P2; nia | ]. split; [ nia | lia ].
Qed.

(* rounding up never passes a power of 2 *)
Lemma round_up : forall x x' b m, 1 <= m -> 0 <= b -> 0 < x <= 2 ^ b ->
  (exists k, x' = 2 ^ m * k) -> (x' <= x \/ (2 ^ (m - 1) < x /\ x' < x + 2 ^ (m - 1))) -> x' <= 2 ^ b.
Proof.
  intros x x' b m Hm Hb Hx (k & Hk) [H|(H1 & H2)]; [ lia | ].
  assert (m - 1 < b) by (apply (Z.pow_lt_mono_r_iff 2); lia).
  assert (E : 2 ^ b = 2 ^ m * 2 ^ (b - m)) by (rewrite <- Z.pow_add_r by lia; f_equal; lia).
  assert (E2 : 2 ^ m = 2 * 2 ^ (m - 1)) by (rewrite <- Z.pow_succ_r by lia; f_equal; lia).
  assert (P : 0 < 2 ^ (m - 1)) by (apply Z.pow_pos_nonneg; lia).
  set (B := 2 ^ (b - m)) in *. set (M := 2 ^ m) in *.
  assert (M * k < M * (B + 1)) by nia. assert (k < B + 1) by nia. nia.
Qed.

Definition inv (tb S n0 : Z) (fin control : list smvt) (position : Z) (ds : list smvt) (X : Z) : Prop :=
  (exists pre, control = pre ++ ds ++ fin /\ Z.of_nat (length pre) = position + 1) /\
  position = n0 - Z.of_nat (length ds) /\ Forall (digit_ok tb) ds /\ spaced (tb + 2) ds /\
  match ds with [] => True | d :: _ => power d <= 446 /\ exists k, X = 2 ^ (power d + (tb + 2)) * k end /\
  S = dsum ds + X /\ 0 <= X <= 2 ^ 446 /\
  (X = 0 -> match ds with [] => True | d :: _ => 0 < addend d end).

Lemma pow_div_odd : forall a k p O, 0 <= a -> 0 <= p -> 2 ^ a * k = 2 ^ p * O -> Z.odd O = true -> a <= p.
Proof.
  intros a k p O Ha Hp E HO. destruct (Z_le_gt_dec a p); [ assumption | exfalso ].
  assert (P : 0 < 2 ^ p) by (apply Z.pow_pos_nonneg; lia).
  assert (E1 : 2 ^ a = 2 ^ p * (2 * 2 ^ (a - p - 1))).
  { rewrite <- Z.pow_succ_r by lia. rewrite <- Z.pow_add_r by lia. f_equal. lia. }
  rewrite E1, <- Z.mul_assoc in E. apply Z.mul_reg_l in E; [ | lia ].
  rewrite <- E, <- Z.mul_assoc, Z.odd_mul in HO. cbn [Z.odd andb] in HO. discriminate.
Qed.

Lemma digit_step : forall tb S n0 fin control position ds X p o,
  1 <= tb -> 446 < (tb + 2) * n0 ->
  inv tb S n0 fin control position ds X -> 0 <= p -> 0 <= o -> Z.odd o = true ->
  (exists h, 0 <= h /\ X = 2 ^ p * (o + 2 ^ (tb + 2) * h)) ->
  1 <= position /\
  exists control', zupd control position (Smvt p (wdelta tb o)) = Some control' /\
    inv tb S n0 fin control' (position - 1) (Smvt p (wdelta tb o) :: ds) (X - wdelta tb o * 2 ^ p).
Proof.
  intros tb S n0 fin control position ds X p o Ht Hn0 ((pre & EC & Lp) & Epos & HF & HS & HD & ES & HX & H0) Hp Ho Oo (h & Hh & EX).
  destruct (wdelta_ok tb o Ht Ho Oo) as (D1 & D2 & (k & D3) & D4 & D5).
  set (dl := wdelta tb o) in *.
  assert (P : 0 < 2 ^ p) by (apply Z.pow_pos_nonneg; lia).
  assert (PG : 0 < 2 ^ (tb + 2)) by (apply Z.pow_pos_nonneg; lia).
  assert (OO : Z.odd (o + 2 ^ (tb + 2) * h) = true).
  { replace (2 ^ (tb + 2)) with (2 * 2 ^ (tb + 1)) by (rewrite <- Z.pow_succ_r by lia; f_equal; lia).
    rewrite <- Z.mul_assoc, Z.odd_add_mul_2. exact Oo. }
  assert (Op : 0 < o) by (destruct (Z.eq_dec o 0) as [->|]; [ discriminate Oo | lia ]).
  assert (XP : 0 < X) by nia.
  assert (Hp446 : p <= 446).
  { apply (Z.pow_le_mono_r_iff 2); [ lia | lia | ]. nia. }
  assert (Hpow : match ds with [] => True | d :: _ => power d + (tb + 2) <= p end).
  { destruct ds as [|d t]; [ exact I | ]. destruct HD as (_ & k0 & Hk0). cbn [spaced] in HS.
    apply (pow_div_odd _ k0 p (o + 2 ^ (tb + 2) * h)); [ lia | lia | congruence | exact OO ]. }
  assert (Hlen : (tb + 2) * Z.of_nat (length ds) <= p).
  { pose proof (spaced_len (tb + 2) ds ltac:(lia) HS) as L. destruct ds as [|d t]; [ cbn [length]; lia | ].
    cbn [length]. rewrite Nat2Z.inj_succ. lia. }
  assert (Hpos : 1 <= position) by nia.
  split; [ exact Hpos | ].
  destruct (exists_last (l := pre)) as (pre' & x & Epre); [ intros ->; cbn [length] in Lp; lia | ].
  subst pre. rewrite app_length in Lp. cbn [length] in Lp.
  exists (pre' ++ Smvt p dl :: ds ++ fin). split.
  { rewrite EC, <- app_assoc. cbn [app]. replace position with (Z.of_nat (length pre')) by lia. apply zupd_app. }
  assert (E1 : X - dl * 2 ^ p = 2 ^ (p + (tb + 2)) * (k + h)).
  { rewrite Z.pow_add_r by lia. rewrite EX. replace o with (dl + 2 ^ (tb + 2) * k) by lia. ring. }
  split; [ exists pre'; split; [ reflexivity | lia ] | ].
  split; [ cbn [length]; lia | ].
  split; [ constructor; [ split; [ exact D1 | exact D2 ] | exact HF ] | ].
  split; [ cbn [spaced power]; split; [ exact Hp | ]; split; [ destruct ds; [ exact I | exact Hpow ] | exact HS ] | ].
  split; [ split; [ exact Hp446 | exists (k + h); exact E1 ] | ].
  split; [ cbn [dsum addend power]; lia | ].
  split; [ split; [ nia | ] | ].
  - apply (round_up X _ 446 (p + (tb + 2))); [ lia | lia | lia | exists (k + h); exact E1 | ].
    destruct (Z_le_gt_dec dl 0) as [L|L]; [ right | left; nia ].
    replace (p + (tb + 2) - 1) with (p + (tb + 1)) by lia. rewrite Z.pow_add_r by lia.
    specialize (D5 L). split; nia.
  - intro C. cbn [addend]. nia.
Qed.

Lemma as_i32_small : forall z, - 2 ^ 31 <= z < 2 ^ 31 -> as_i32 (wrap32 z) = z.
Proof.
  intros z H. unfold as_i32. rewrite wrap32_mod. destruct (Z_lt_ge_dec z 0).
  - replace (z mod 2 ^ 32) with (z + 2 ^ 32) by (apply (Z.mod_unique _ _ (-1)); lia).
    destruct (Z.ltb_spec (z + 2 ^ 32) (2 ^ 31)); lia.
  - rewrite Z.mod_small by lia. destruct (Z.ltb_spec z (2 ^ 31)); lia.
Qed.
Lemma land16 : forall x, Z.land x 0xffff = x mod 2 ^ 16.
Proof. intro x. apply (land_ones_mod 16). lia. Qed.
Lemma while_ok : forall fuel tb S n0 fin w control position c ds X H z,
  3 <= tb <= 5 -> 446 < (tb + 2) * n0 -> 1 <= w -> n0 < 2 ^ 32 ->
  inv tb S n0 fin control position ds X ->
  0 <= H -> 0 <= c <= 2 ^ 32 -> X = 2 ^ (16 * (w - 1)) * (c + 2 ^ 32 * H) ->
  0 <= z -> (exists k, c = 2 ^ z * k) -> 17 <= Z.of_nat fuel + z ->
  exists control' position' c' ds' X',
    recode_while fuel tb w control position c = Some (control', position', c') /\
    inv tb S n0 fin control' position' ds' X' /\ 0 <= c' <= 2 ^ 32 /\ c' mod 2 ^ 16 = 0 /\
    X' = 2 ^ (16 * (w - 1)) * (c' + 2 ^ 32 * H).
Proof.
  induction fuel as [|f IH]; intros tb S n0 fin w control position c ds X H z Ht Hn0 Hw Hn1 HI HH Hc EX Hz (kz & Ez) Hf.
  - assert (E : Z.land c 0xffff = 0).
    { rewrite land16, Ez. replace (2 ^ z) with (2 ^ 16 * 2 ^ (z - 16)) by (rewrite <- Z.pow_add_r by lia; f_equal; lia).
      rewrite <- Z.mul_assoc, Z.mul_comm. apply Z.mod_mul. lia. }
    exists control, position, c, ds, X. cbn [recode_while]. rewrite E. split; [ reflexivity | ].
    rewrite land16 in E. tauto.
  - cbn [recode_while]. rewrite land16. destruct (Z.eqb_spec (c mod 2 ^ 16) 0) as [E|E].
    { exists control, position, c, ds, X. tauto. }
    assert (c32 : 0 < c < 2 ^ 32).
    { destruct (Z.eq_dec c 0) as [->|]; [ rewrite Z.mod_0_l in E by lia; lia | ].
      destruct (Z.eq_dec c (2 ^ 32)) as [->|]; [ exfalso; apply E; reflexivity | lia ]. }
    rewrite wrap32_small by lia.
    destruct (tz_ok c c32) as (pos & m & E1 & Hpos & Ec & Hm). rewrite E1, bind_Some. cbv beta zeta.
    assert (P : 0 < 2 ^ pos) by (apply Z.pow_pos_nonneg; lia).
    assert (Hp16 : pos < 16).
    { destruct (Z_lt_ge_dec pos 16); [ assumption | exfalso; apply E ].
      rewrite Ec. replace (2 ^ pos) with (2 ^ 16 * 2 ^ (pos - 16)) by (rewrite <- Z.pow_add_r by lia; f_equal; lia).
      rewrite <- Z.mul_assoc, Z.mul_comm. apply Z.mod_mul. lia. }
    assert (Eo : Z.shiftr c pos = 2 * m + 1).
    { rewrite Z.shiftr_div_pow2 by lia. rewrite Ec, Z.mul_comm. apply Z.div_mul. lia. }
    rewrite Eo. change (if negb (Z.land (2 * m + 1) (2 ^ (tb + 1)) =? 0) then Z.land (2 * m + 1) (2 ^ (tb + 1) - 1) - 2 ^ (tb + 1) else Z.land (2 * m + 1) (2 ^ (tb + 1) - 1))
      with (wdelta tb (2 * m + 1)).
    assert (Oo : Z.odd (2 * m + 1) = true) by (rewrite Z.add_comm, Z.odd_add_mul_2; reflexivity).
    destruct (wdelta_ok tb (2 * m + 1) ltac:(lia) ltac:(lia) Oo) as (D1 & D2 & (k & D3) & D4 & D5).
    destruct (digit_step tb S n0 fin control position ds X (pos + 16 * (w - 1)) (2 * m + 1)) as (Hpp & control' & EU & HI');
      try assumption; try lia.
    { exists (2 ^ (32 - pos - (tb + 2)) * H). split; [ apply Z.mul_nonneg_nonneg; [ apply Z.pow_nonneg; lia | lia ] | ].
      rewrite Z.mul_assoc, <- Z.pow_add_r by lia. replace (tb + 2 + (32 - pos - (tb + 2))) with (32 - pos) by ring.
      rewrite EX, Ec, Z.pow_add_r by lia.
      replace (2 ^ 32) with (2 ^ pos * 2 ^ (32 - pos)) by (rewrite <- Z.pow_add_r by lia; f_equal; lia). ring. }
    set (dl := wdelta tb (2 * m + 1)) in *.
    assert (Hd64 : - 64 < dl < 64).
    { assert (2 ^ (tb + 1) <= 2 ^ 6) by (apply Z.pow_le_mono_r; lia). change (2 ^ 6) with 64 in *. lia. }
    assert (P16 : 2 ^ pos <= 2 ^ 15) by (apply Z.pow_le_mono_r; lia).
    rewrite Z.shiftl_mul_pow2 by lia. rewrite as_i32_small by (clear - Hd64 P P16; nia).
    assert (PM : 2 ^ (pos + (tb + 2) - 1) = 2 ^ pos * 2 ^ (tb + 1)) by (rewrite <- Z.pow_add_r by lia; f_equal; lia).
    assert (C0 : 0 <= c - dl * 2 ^ pos) by (clear - Ec D4 P; nia).
    assert (EK : c - dl * 2 ^ pos = 2 ^ (pos + (tb + 2)) * k).
    { rewrite Z.pow_add_r by lia. rewrite Ec. replace (2 * m + 1) with (dl + 2 ^ (tb + 2) * k) by lia. ring. }
    assert (C1 : c - dl * 2 ^ pos <= 2 ^ 32).
    { apply (round_up c _ 32 (pos + (tb + 2))); [ lia | lia | lia | exists k; exact EK | ].
      rewrite PM. destruct (Z_le_gt_dec dl 0) as [L|L]; [ right; specialize (D5 L); clear - Ec D5 D2 P; split; nia | left; clear - L P; nia ]. }
    unfold as_i64. destruct (Z.ltb_spec c (2 ^ 63)); [ | lia ].
    rewrite chk_i64_ok by lia. rewrite bind_Some. cbv beta. rewrite wrap64_small by lia.
    rewrite EU, bind_Some. cbv beta.
    assert (Hpn : position <= n0) by (destruct HI as (_ & -> & _); lia).
    rewrite chk_usize_ok by lia. rewrite bind_Some. cbv beta.
    assert (Hzp : z <= pos).
    { apply (pow_div_odd z kz pos (2 * m + 1)); [ lia | lia | congruence | exact Oo ]. }
    apply (IH tb S n0 fin w control' (position - 1) _ _ _ H (pos + (tb + 2)) Ht Hn0 Hw Hn1 HI' HH); try lia.
    + rewrite Z.pow_add_r by lia. rewrite EX. ring.
    + exists k. exact EK.
Qed.

(* half-words of a scalar *)
Lemma word_val : forall s k w, wf s -> 0 <= k < 14 -> znth s k = Some w -> w = (v32 s / 2 ^ (32 * k)) mod 2 ^ 32.
Proof.
  intros s k w Hs Hk E. apply Z.bits_inj'. intros n Hn.
  destruct (wf_word s k Hs Hk) as (w' & E' & Hw). rewrite E in E'. injection E' as <-.
  destruct (Z_lt_ge_dec n 32) as [L|L].
  - rewrite Z.mod_pow2_bits_low, Z.div_pow2_bits by lia.
    pose proof (v32_testbit s (n + 32 * k) w (proj2 Hs)) as T.
    replace ((n + 32 * k) / 32) with k in T by (apply (Z.div_unique _ 32 k n); lia).
    replace ((n + 32 * k) mod 32) with n in T by (apply (Z.mod_unique _ 32 k n); lia).
    apply T; [ lia | rewrite (proj1 Hs); lia | exact E ].
  - rewrite Z.mod_pow2_bits_high by lia. apply bit_above; [ exact Hw | lia ].
Qed.
Lemma half_val : forall s w, wf s -> 0 <= w < 28 -> exists sw, znth s (w / 2) = Some sw /\
  shl32 (Z.shiftr sw (16 * (w mod 2))) 16 = 2 ^ 16 * ((v32 s / 2 ^ (16 * w)) mod 2 ^ 16).
Proof.
  intros s w Hs Hw. assert (Hk : 0 <= w / 2 < 14) by (split; [ apply Z.div_pos; lia | apply Z.div_lt_upper_bound; lia ]).
  destruct (wf_word s (w / 2) Hs Hk) as (sw & E & Hsw). exists sw. split; [ exact E | ].
  rewrite (word_val s _ sw Hs Hk E). unfold shl32. rewrite wrap32_mod, Z.shiftl_mul_pow2 by lia.
  change (2 ^ 32) with (2 ^ 16 * 2 ^ 16). rewrite Z.mul_mod_distr_r by lia. rewrite Z.mul_comm. f_equal.
  pose proof (Z.div_mod w 2 ltac:(lia)) as D. pose proof (Z.mod_pos_bound w 2 ltac:(lia)) as B.
  pose proof (wf_range s Hs) as R.
  set (V := v32 s) in *. set (y := V / 2 ^ (32 * (w / 2))) in *.
  assert (C : w mod 2 = 0 \/ w mod 2 = 1) by lia. destruct C as [C|C]; rewrite C.
  - change (16 * 0) with 0. rewrite Z.shiftr_0_r. rewrite <- Zmod_div_mod; [ | lia | lia | exists (2 ^ 16); ring ].
    unfold y. do 3 f_equal. lia.
  - change (16 * 1) with 16. rewrite Z.shiftr_div_pow2 by lia.
    rewrite (Z.rem_mul_r y (2 ^ 16) (2 ^ 16)) by lia.
    rewrite (Z.mul_comm (2 ^ 16) ((y / 2 ^ 16) mod 2 ^ 16)), Z.div_add by lia.
    rewrite (Z.div_small (y mod 2 ^ 16)) by (apply Z.mod_pos_bound; lia). rewrite Z.add_0_l, Z.mod_mod by lia.
    unfold y. rewrite Z.div_div by (try apply Z.pow_nonzero; try apply Z.pow_pos_nonneg; lia).
    rewrite <- Z.pow_add_r by lia. do 3 f_equal. lia.
Qed.
Lemma for_ok : forall rounds tb s n0 fin w control position c ds X,
  3 <= tb <= 5 -> 446 < (tb + 2) * n0 -> 1 <= w -> w + Z.of_nat rounds = 30 -> n0 < 2 ^ 32 -> wf s ->
  inv tb (v32 s) n0 fin control position ds X -> 0 <= c <= 2 ^ 16 ->
  X = 2 ^ (16 * (w - 1)) * (c + 2 ^ 16 * (v32 s / 2 ^ (16 * w))) ->
  exists control' position' c' ds', recode_for rounds w s tb control position c = Some (control', position', c') /\
    inv tb (v32 s) n0 fin control' position' ds' 0.
Proof.
  induction rounds as [|n IH]; intros tb s n0 fin w control position c ds X Ht Hn0 Hw Hr Hn1 Hs HI Hc EX.
  - exists control, position, c, ds. split; [ reflexivity | ].
    assert (w = 30) by lia. subst w. pose proof (wf_range s Hs) as R.
    assert (X = 0) as ->; [ | exact HI ].
    pose proof HI as (_ & _ & _ & _ & _ & _ & HX & _).
    assert (E : v32 s / 2 ^ (16 * 30) = 0) by (apply Z.div_small; split; [ lia | apply (Z.lt_trans _ (2 ^ 448)); [ lia | reflexivity ] ]).
    rewrite E in EX. change (2 ^ (16 * (30 - 1))) with (2 ^ 446 * 2 ^ 18) in EX.
    assert (0 < 2 ^ 446) by reflexivity. set (T := 2 ^ 446) in *. clearbody T.
    destruct (Z.eq_dec c 0) as [->|]; [ lia | nia ].
  - cbn [recode_for]. pose proof (wf_range s Hs) as R.
    assert (HQ : 0 <= v32 s / 2 ^ (16 * w)) by (apply Z.div_pos; [ lia | apply Z.pow_pos_nonneg; lia ]).
    assert (E2 : v32 s / 2 ^ (16 * (w + 1)) = v32 s / 2 ^ (16 * w) / 2 ^ 16).
    { rewrite Z.div_div by (try apply Z.pow_nonzero; try apply Z.pow_pos_nonneg; lia). rewrite <- Z.pow_add_r by lia. f_equal. f_equal. ring. }
    assert (G : exists c1, (if w <? 28 then sw <- znth s (w / 2) ;; chk_u64 (c + shl32 (Z.shiftr sw (16 * (w mod 2))) 16) else Some c) = Some c1 /\
      0 <= c1 <= 2 ^ 32 /\ X = 2 ^ (16 * (w - 1)) * (c1 + 2 ^ 32 * (v32 s / 2 ^ (16 * (w + 1))))).
    { pose proof (Z.mod_pos_bound (v32 s / 2 ^ (16 * w)) (2 ^ 16) ltac:(lia)) as B.
      destruct (Z.ltb_spec w 28) as [L|L].
      - destruct (half_val s w Hs ltac:(lia)) as (sw & E & Eh). rewrite E, bind_Some. cbv beta. rewrite Eh.
        eexists. split; [ apply chk_u64_ok; lia | ]. split; [ lia | ].
        rewrite E2, EX. f_equal. pose proof (Z.div_mod (v32 s / 2 ^ (16 * w)) (2 ^ 16) ltac:(lia)). lia.
      - exists c. split; [ reflexivity | ]. split; [ lia | ].
        assert (E : v32 s / 2 ^ (16 * w) = 0).
        { apply Z.div_small. split; [ lia | ]. apply (Z.lt_le_trans _ (2 ^ 448)); [ lia | ]. apply Z.pow_le_mono_r; lia. }
        rewrite E2, EX, E. rewrite Z.div_0_l by lia. ring. }
    destruct G as (c1 & E1 & Hc1 & EX1). rewrite E1, bind_Some. cbv beta.
    destruct (while_ok 20 tb (v32 s) n0 fin w control position c1 ds X (v32 s / 2 ^ (16 * (w + 1))) 0)
      as (control' & position' & c' & ds' & X' & E3 & HI' & Hc' & Em & EX'); try assumption; try lia.
    { rewrite E2. apply Z.div_pos; lia. }
    { exists c1. change (2 ^ 0) with 1. ring. }
    rewrite E3, bind_Some. cbv beta iota. rewrite Z.shiftr_div_pow2 by lia.
    pose proof (Z.div_mod c' (2 ^ 16) ltac:(lia)) as D. rewrite Em in D.
    apply (IH tb s n0 fin (w + 1) control' position' (c' / 2 ^ 16) ds' X'); try assumption; try lia.
    rewrite EX'. replace (16 * (w + 1 - 1)) with (16 * (w - 1) + 16) by ring. rewrite Z.pow_add_r by lia.
    replace c' with (2 ^ 16 * (c' / 2 ^ 16)) at 1 by lia. ring.
Qed.

(* moving the digits to the front *)
Lemma nth_upd : forall (A : Type) (l : list A) i j v d, (i < length l)%nat ->
  nth j (upd_nat l i v) d = if (j =? i)%nat then v else nth j l d.
Proof.
  induction l as [|x l IH]; intros i j v d Hi; [ cbn [length] in Hi; lia | ].
  destruct i as [|i], j as [|j]; cbn [upd_nat nth Nat.eqb]; try reflexivity.
  apply IH. cbn [length] in Hi. lia.
Qed.
Lemma copy_ok : forall n i k C, (i + n + k <= length C)%nat ->
  exists C', recode_copy n (Z.of_nat i) (Z.of_nat k) C = Some C' /\ length C' = length C /\
    forall j d, nth j C' d = if ((i <=? j) && (j <? i + n))%nat then nth (j + k) C d else nth j C d.
Proof.
  induction n as [|n IH]; intros i k C H.
  - exists C. split; [ reflexivity | ]. split; [ reflexivity | ]. intros j d.
    destruct (Nat.leb_spec i j), (Nat.ltb_spec j (i + 0)); cbn [andb]; try reflexivity. lia.
  - cbn [recode_copy]. destruct C as [|c0 C0] eqn:EC; [ cbn [length] in H; lia | ]. rewrite <- EC in *. clear EC C0.
    rewrite (znth_spec _ _ _ c0) by lia. rewrite bind_Some. cbv beta.
    replace (Z.to_nat (Z.of_nat i + Z.of_nat k)) with (i + k)%nat by lia.
    unfold zupd. destruct (Z.leb_spec 0 (Z.of_nat i)); [ | lia ].
    destruct (Z.ltb_spec (Z.of_nat i) (Z.of_nat (length C))); [ | lia ]. cbn [andb]. rewrite bind_Some. cbv beta.
    rewrite Nat2Z.id. set (C1 := upd_nat C i (nth (i + k) C c0)).
    assert (L1 : length C1 = length C) by apply upd_nat_length.
    destruct (IH (S i) k C1 ltac:(lia)) as (C' & E' & L' & HC').
    replace (Z.of_nat i + 1) with (Z.of_nat (S i)) by lia.
    exists C'. split; [ exact E' | ]. split; [ lia | ]. intros j d. rewrite HC'.
    assert (HU : forall t, nth t C1 d = if (t =? i)%nat then nth (i + k) C c0 else nth t C d) by (intro; apply nth_upd; lia).
    rewrite !HU.
    destruct (Nat.leb_spec (S i) j), (Nat.ltb_spec j (S i + n)), (Nat.leb_spec i j), (Nat.ltb_spec j (i + S n)),
      (Nat.eqb_spec (j + k) i), (Nat.eqb_spec j i); cbn [andb]; try lia; try reflexivity.
    all: try (subst j; apply nth_indep; lia).
Qed.

Definition wnaf_end : smvt := Smvt (-1) 0.
Definition wnaf_list (tb S : Z) (ds : list smvt) : Prop :=
  Forall (digit_ok tb) ds /\ spaced (tb + 2) ds /\ dsum ds = S /\
  match ds with [] => True | d :: _ => power d <= 446 /\ 0 < addend d end.
Lemma nth_skipn_add : forall (A : Type) n (l : list A) j d, nth j (skipn n l) d = nth (n + j) l d.
Proof.
  induction n as [|n IH]; intros l j d; [ reflexivity | ]. destruct l as [|x l]; [ destruct j; reflexivity | ]. cbn [skipn Nat.add nth]. apply IH.
Qed.
Lemma recode_full : forall control s tb, 3 <= tb <= 5 -> wf s -> v32 s <= 2 ^ 446 ->
  (Z.to_nat (446 / (tb + 1) + 3) <= length control)%nat ->
  exists ds rest r, recode_wnaf control s tb = Some (ds ++ wnaf_end :: rest, r) /\ wnaf_list tb (v32 s) ds /\
    r = Z.of_nat (length ds) /\ (length ds < Z.to_nat (446 / (tb + 1) + 3))%nat /\
    length (ds ++ wnaf_end :: rest) = length control /\
    skipn (Z.to_nat (446 / (tb + 1) + 3)) (ds ++ wnaf_end :: rest) = skipn (Z.to_nat (446 / (tb + 1) + 3)) control.
Proof.
  intros control s tb Ht Hs HV HL. unfold recode_wnaf. cbv zeta. pose proof (wf_range s Hs) as R.
  set (ts := 446 / (tb + 1) + 3) in *.
  assert (Hts : 3 <= ts <= 226).
  { unfold ts. assert (0 <= 446 / (tb + 1)) by (apply Z.div_pos; lia).
    assert (446 / (tb + 1) <= 223) by (apply Z.div_le_upper_bound; lia). lia. }
  assert (H446 : 446 < (tb + 2) * (ts - 2)).
  { unfold ts. pose proof (Z.div_mod 446 (tb + 1) ltac:(lia)). pose proof (Z.mod_pos_bound 446 (tb + 1) ltac:(lia)). nia. }
  clearbody ts.
  destruct (firstn_skipn (Z.to_nat (ts - 1)) control) as [].
  set (pre := firstn (Z.to_nat (ts - 1)) control). 
  assert (Lp : Z.of_nat (length pre) = ts - 1) by (unfold pre; rewrite firstn_length; lia).
  destruct (skipn (Z.to_nat (ts - 1)) control) as [|x post] eqn:ES.
  { apply (f_equal (@length smvt)) in ES. rewrite skipn_length in ES. cbn [length] in ES. lia. }
  rewrite <- Lp, zupd_app, bind_Some. cbv beta.
  destruct (wf_word s 0 Hs ltac:(lia)) as (s0 & E0 & H0). rewrite E0, bind_Some. cbv beta.
  assert (Es0 : Z.land s0 0xffff = v32 s mod 2 ^ 16).
  { rewrite land16. rewrite (word_val s 0 s0 Hs ltac:(lia) E0). change (2 ^ (32 * 0)) with 1. rewrite Z.div_1_r.
    rewrite <- Zmod_div_mod; [ reflexivity | lia | lia | exists (2 ^ 16); reflexivity ]. }
  rewrite Es0. fold wnaf_end. pose proof (Z.mod_pos_bound (v32 s) (2 ^ 16) ltac:(lia)) as B.
  destruct (for_ok 29 tb s (ts - 2) (wnaf_end :: post) 1 (pre ++ wnaf_end :: post) (ts - 2) (v32 s mod 2 ^ 16) [] (v32 s))
    as (C1 & position & c' & ds & E1 & HI); try assumption; try lia.
  { split; [ exists pre; split; [ reflexivity | lia ] | ]. split; [ cbn [length]; lia | ]. split; [ constructor | ].
    split; [ exact I | ]. split; [ exact I | ]. split; [ cbn [dsum]; lia | ]. split; [ lia | intros; exact I ]. }
  { change (2 ^ (16 * (1 - 1))) with 1. change (16 * 1) with 16. pose proof (Z.div_mod (v32 s) (2 ^ 16) ltac:(lia)). lia. }
  replace (Z.of_nat (length pre) - 1) with (ts - 2) by lia. rewrite E1, bind_Some. cbv beta iota.
  destruct HI as ((pre' & EC & Lp') & Epos & HF & HS & HD & ESum & _ & Hlead).
  assert (Hp : 0 <= position + 1) by lia.
  replace (position + 1) with (Z.of_nat (length pre')) by lia.
  replace (ts - Z.of_nat (length pre')) with (Z.of_nat (length ds + 1)) by lia.
  replace (Z.of_nat (length pre) + 1 - Z.of_nat (length pre')) with (Z.of_nat (length ds + 1)) by lia.
  rewrite chk_usize_ok by lia. rewrite bind_Some. cbv beta. rewrite Nat2Z.id.
  destruct (copy_ok (length ds + 1) 0 (length pre') C1) as (C2 & E2 & L2 & HC2).
  { rewrite EC, !app_length. cbn [length]. lia. }
  change (Z.of_nat 0) with 0 in E2. rewrite E2, bind_Some. cbv beta.
  rewrite chk_usize_ok by lia. rewrite bind_Some. cbv beta.
  assert (EQ : C2 = ds ++ wnaf_end :: skipn (length ds + 1) C2).
  { rewrite <- (firstn_skipn (length ds + 1) C2) at 1.
    replace (ds ++ wnaf_end :: skipn (length ds + 1) C2) with ((ds ++ [wnaf_end]) ++ skipn (length ds + 1) C2) by (rewrite <- app_assoc; reflexivity).
    f_equal. apply (nth_ext _ _ wnaf_end wnaf_end).
    { rewrite firstn_length, L2, EC, !app_length. cbn [length]. lia. }
    intros n Hn. rewrite firstn_length, L2, EC, !app_length in Hn. cbn [length] in Hn.
    assert (N : nth n (firstn (length ds + 1) C2) wnaf_end = nth n C2 wnaf_end).
    { rewrite <- (firstn_skipn (length ds + 1) C2) at 2. rewrite app_nth1; [ reflexivity | ].
      rewrite firstn_length, L2, EC, !app_length. cbn [length]. lia. }
    rewrite N, HC2. destruct (Nat.leb_spec 0 n), (Nat.ltb_spec n (0 + (length ds + 1))); cbn [andb]; try lia.
    rewrite EC, app_nth2 by lia. replace (n + length pre' - length pre')%nat with n by lia.
    change (wnaf_end :: post) with ([wnaf_end] ++ post). rewrite app_assoc, app_nth1; [ reflexivity | ].
    rewrite app_length. cbn [length]. lia. }
  assert (LC : length C2 = length (pre ++ x :: post)).
  { rewrite L2, EC, !app_length. cbn [length]. lia. }
  exists ds, (skipn (length ds + 1) C2). eexists. split; [ rewrite <- EQ; reflexivity | ]. rewrite <- EQ. split; [ | split; [ | split; [ | split ] ] ].
  - split; [ exact HF | ]. split; [ exact HS | ]. split; [ lia | ].
    destruct ds as [|d t]; [ exact I | ]. split; [ exact (proj1 HD) | apply Hlead; reflexivity ].
  - replace (Z.of_nat (length ds + 1) - 1) with (Z.of_nat (length ds)) by lia. rewrite wrap32_mod. apply Z.mod_small. lia.
  - lia.
  - exact LC.
  - apply (nth_ext _ _ wnaf_end wnaf_end); [ rewrite !skipn_length, LC; reflexivity | ].
    intros n Hn. rewrite skipn_length in Hn. rewrite !nth_skipn_add, HC2.
    destruct (Nat.leb_spec 0 (Z.to_nat ts + n)), (Nat.ltb_spec (Z.to_nat ts + n) (0 + (length ds + 1))); cbn [andb]; try lia.
    rewrite EC. rewrite !app_nth2 by lia. 
    destruct (Z.to_nat ts + n - length pre' - length ds)%nat as [|a] eqn:Ea; [ lia | ].
    destruct (Z.to_nat ts + n - length pre)%nat as [|b] eqn:Eb; [ lia | ].
    cbn [nth]. f_equal. lia.
Qed.
Lemma recode_ok : forall control s tb, 3 <= tb <= 5 -> wf s -> v32 s <= 2 ^ 446 ->
  (Z.to_nat (446 / (tb + 1) + 3) <= length control)%nat ->
  exists ds rest r, recode_wnaf control s tb = Some (ds ++ wnaf_end :: rest, r) /\ wnaf_list tb (v32 s) ds.
Proof.
  intros control s tb Ht Hs HV HL. destruct (recode_full control s tb Ht Hs HV HL) as (ds & rest & r & E & W & _).
  exists ds, rest, r. split; assumption.
Qed.
