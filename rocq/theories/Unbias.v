(* Scalars made from 114 uniform bytes are nearly uniform modulo q. *)
From Coq Require Import ZArith List Bool Lia.
From Verif Require Import SpecBytes SpecScalar SpecCurve SpecEd448 SpecInternal SpecUniform Base Bytes ScalarModel ScalarProofs Eddsa Goldilocks.
From Verif Require Import Field Edwards Isogeny CombMul Decode Torsion Ed448 Order Equation Facts Kernel Uniform Count Bind Protocol Structure SmallKeys Internal.
Import ListNotations.
Open Scope Z_scope.

Lemma residue_sum : forall g Q k rest, 0 < Q -> 0 <= k -> 0 <= rest < Q ->
  zsum (fun z => g (z mod Q)) (Q * k + rest) = k * zsum g Q + zsum g rest.
Proof.
  intros g Q k rest HQ Hk Hr. rewrite zsum_app by (try apply Z.mul_nonneg_nonneg; lia). rewrite zsum_mul by lia. f_equal.
  - transitivity (zsum (fun lo => k * g lo) Q).
    + apply zsum_ext. intros lo Hlo. rewrite (zsum_ext _ (fun _ => g lo)); [ apply zsum_const; exact Hk | ].
      intros hi _. rewrite (Z.mul_comm Q hi), Z.mod_add by lia. rewrite Z.mod_small by exact Hlo. reflexivity.
    + unfold zsum. induction (Z.to_nat Q) as [|n IH]; [ cbn [nsum]; ring | ]. cbn [nsum]. rewrite IH. ring.
  - apply zsum_ext. intros i Hi. rewrite (Z.add_comm (Q * k) i), (Z.mul_comm Q k), Z.mod_add by lia. rewrite Z.mod_small by lia. reflexivity.
Qed.
Lemma zsum_bound : forall f n, 0 <= n -> 0 <= zsum (fun i => if f i : bool then 1 else 0) n <= n.
Proof.
  intros f n Hn. unfold zsum. rewrite <- (Z2Nat.id n Hn) at 3. induction (Z.to_nat n) as [|m IH]; [ cbn [nsum]; lia | ].
  cbn [nsum]. destruct (f (Z.of_nat m)); lia.
Qed.
(* the scalar read from a string *)
Definition scalar_is (f : Z -> bool) (h : list Z) : bool := match decode_long h with Some r => f (sc r) | None => false end.
Lemma scalar_strings : forall f, tally (scalar_is f) (strings 114) = zsum (fun z => if f (z mod q448) then 1 else 0) (256 ^ 114).
Proof.
  intro f. rewrite tally_strings. apply zsum_ext. intros z Hz. unfold scalar_is.
  destruct (decode_long_ok (le_bytes 114 z) (le_bytes_bytes _ _)) as (r & E & _ & V); [ rewrite le_bytes_length; reflexivity | ].
  rewrite E. rewrite sc_v, V, le_val_le_bytes. change (256 ^ Z.of_nat 114) with (256 ^ 114) in *. rewrite (Z.mod_small z) by exact Hz. reflexivity.
Qed.
Definition share : Z := 256 ^ 114 / q448.
Lemma share_eq : 256 ^ 114 = q448 * share + 256 ^ 114 mod q448.
Proof. apply Z.div_mod. discriminate. Qed.
Lemma hits_share : forall s, 0 <= s < q448 -> tally (scalar_is (Z.eqb s)) (strings 114) = share + (if s <? 256 ^ 114 mod q448 then 1 else 0).
Proof.
  intros s Hs. rewrite scalar_strings. pose proof (Z.mod_pos_bound (256 ^ 114) q448 eq_refl) as R. pose proof share_eq as E.
  assert (K : 0 <= share) by (unfold share; apply Z.div_pos; [ apply Z.pow_nonneg; lia | reflexivity ]).
  set (rest := 256 ^ 114 mod q448) in *. clearbody rest. set (k := share) in *. clearbody k. rewrite E.
  rewrite (residue_sum (fun i => if s =? i then 1 else 0) q448 k rest) by (try lia; assumption).
  assert (P : forall n, zsum (fun i => if s =? i then 1 else 0) n = zsum (fun i => if i =? s then 1 else 0) n).
  { intro n. apply zsum_ext. intros i _. rewrite Z.eqb_sym. reflexivity. }
  rewrite !P, zsum_point by exact Hs. rewrite Z.mul_1_r. f_equal. destruct (Z.ltb_spec s rest).
  - apply zsum_point. lia.
  - apply zsum_zero; [ lia | ]. intros i Hi. destruct (Z.eqb_spec i s); [ lia | reflexivity ].
Qed.
Theorem hits : forall s, 0 <= s < q448 -> tally (scalar_is (Z.eqb s)) (strings 114) = 256 ^ 114 / q448 + (if s <? 256 ^ 114 mod q448 then 1 else 0).
Proof. intros s Hs. rewrite (hits_share s Hs). unfold share. reflexivity. Qed.
Lemma gap : forall q k rest F G, 0 < q -> 0 <= rest < q -> 0 <= F <= q -> 0 <= G <= rest -> q < 2 ^ 446 -> 2 ^ 912 = q * k + rest ->
  Z.abs (q * (k * F + G) - 2 ^ 912 * F) * 2 ^ 466 <= q * 2 ^ 912.
Proof.
  intros q k rest F G Hq Hr HF HG Hb E. rewrite E at 1. replace (q * (k * F + G) - (q * k + rest) * F) with (q * G - rest * F) by ring.
  assert (A : Z.abs (q * G - rest * F) <= q * rest).
  { apply Z.abs_le. assert (0 <= q * G) by (apply Z.mul_nonneg_nonneg; lia). assert (q * G <= q * rest) by (apply Z.mul_le_mono_nonneg_l; lia).
    assert (0 <= rest * F) by (apply Z.mul_nonneg_nonneg; lia). assert (rest * F <= rest * q) by (apply Z.mul_le_mono_nonneg_l; lia). lia. }
  apply Z.le_trans with (q * rest * 2 ^ 466); [ apply Z.mul_le_mono_nonneg_r; [ apply Z.pow_nonneg; lia | exact A ] | ].
  rewrite <- Z.mul_assoc. apply Z.mul_le_mono_nonneg_l; [ lia | ]. change (2 ^ 912) with (2 ^ 446 * 2 ^ 466). apply Z.mul_le_mono_nonneg_r; [ apply Z.pow_nonneg; lia | lia ].
Qed.
Theorem distance : forall f : Z -> bool,
  Z.abs (q448 * tally (scalar_is f) (strings 114) - 256 ^ 114 * tally f (below q448)) * 2 ^ 466 <= q448 * 256 ^ 114.
Proof.
  intro f. rewrite scalar_strings, tally_below. pose proof (Z.mod_pos_bound (256 ^ 114) q448 eq_refl) as R. pose proof share_eq as E.
  assert (K : 0 <= share) by (unfold share; apply Z.div_pos; [ apply Z.pow_nonneg; lia | reflexivity ]).
  assert (Q : 0 < q448 < 2 ^ 446) by (split; reflexivity).
  set (rest := 256 ^ 114 mod q448) in *. clearbody rest. set (k := share) in *. clearbody k. rewrite E at 1.
  rewrite (residue_sum (fun i => if f i then 1 else 0) q448 k rest) by (try lia; assumption).
  change (256 ^ 114) with (2 ^ 912) in *. apply (gap q448 k rest); try assumption; try lia; apply zsum_bound; lia.
Qed.
Lemma case : 0 < 256 ^ 114 mod q448 < q448 - 1 /\ 2 ^ 465 < 256 ^ 114 / q448.
Proof. split; [ split | ]; vm_compute; reflexivity. Qed.

Lemma bits_count_all : forall t, 0 <= t < 2 ^ 445 -> zsum (fun z => if z mod 2 ^ 447 / 4 =? t then 1 else 0) (2 ^ 456) = 2048.
Proof.
  intros t Ht. replace (2 ^ 456) with (4 * 2 ^ 454) by reflexivity. rewrite zsum_mul by (discriminate || lia).
  rewrite (zsum_ext _ (fun _ => 512)); [ rewrite zsum_const by lia; reflexivity | ]. intros lo Hlo.
  replace (2 ^ 454) with (2 ^ 445 * 2 ^ 9) by reflexivity. rewrite zsum_mul by lia.
  rewrite (zsum_ext _ (fun mid => if mid =? t then 512 else 0)); [ apply zsum_point; exact Ht | ]. intros mid Hmid.
  rewrite (zsum_ext _ (fun top => if mid =? t then 1 else 0)).
  - destruct (mid =? t); rewrite zsum_const by lia; reflexivity.
  - intros top Htop. assert (E : (lo + 4 * (mid + 2 ^ 445 * top)) mod 2 ^ 447 / 4 = mid).
    { replace (lo + 4 * (mid + 2 ^ 445 * top)) with (lo + 4 * mid + top * 2 ^ 447) by ring. rewrite Z.mod_add, Z.mod_small by lia.
      rewrite (Z.mul_comm 4 mid), Z.div_add, Z.div_small by lia. reflexivity. }
    rewrite E. reflexivity.
Qed.
(* every public key comes from the same number of digests *)
Theorem digests : forall t, 0 <= t < 2 ^ 445 ->
  tally (fun h => match secret_to_public h with Some pub => same_string pub (eencode (emul (2 ^ 447 + 4 * t) ebase)) | None => false end) (strings 57) = 2048.
Proof.
  intros t Ht. rewrite tally_strings. change (256 ^ Z.of_nat 57) with (2 ^ 456). rewrite <- (bits_count_all t Ht). apply zsum_ext. intros z Hz.
  destruct (key_number z Hz) as (_ & S2). rewrite (secret_to_public_ok (le_bytes 57 z) (le_bytes_length 57 z) (le_bytes_bytes 57 z)). rewrite S2.
  set (u := z mod 2 ^ 447 / 4).
  assert (Hu : 0 <= u < 2 ^ 445).
  { pose proof (Z.mod_pos_bound z (2 ^ 447) eq_refl). unfold u. split; [ apply Z.div_pos; lia | apply Z.div_lt_upper_bound; lia ]. }
  clearbody u. destruct (Z.eqb_spec u t) as [ -> | NE ].
  - rewrite (proj2 (same_string_eq _ _) eq_refl). reflexivity.
  - destruct (same_string (eencode (emul (2 ^ 447 + 4 * u) ebase)) (eencode (emul (2 ^ 447 + 4 * t) ebase))) eqn:SS; [ exfalso | reflexivity ].
    apply same_string_eq in SS. apply eencode_inj in SS; [ | apply on_B | apply on_B ]. exact (NE (scalar_t_inj u t Hu Ht SS)).
Qed.
