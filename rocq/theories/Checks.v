(* deserialize of bignumber.rs, with its range test, and is_on_curve of extended_point.rs. *)
From Coq Require Import ZArith List Bool Lia Ring.
From Verif Require Import SpecField SpecBytes SpecScalar SpecCurve SpecDecode SpecEd448 SpecInternal.
From Verif Require Import Base Arith Bytes Constants32 BigNumber ScalarModel Niels Errors ExtendedPoint.
From Verif Require Import LimbKara LimbMul LimbOps LimbOps2 LimbSer LimbDeser Field FieldOps ScalarProofs Edwards Isogeny PointOps Decode Equation Internal.
Import ListNotations.
Open Scope Z_scope.

Lemma land_ones28 : forall x, Z.land x RADIX_MASK = x mod 2 ^ 28.
Proof. intro x. change RADIX_MASK with (Z.ones 28). apply Z.land_ones. lia. Qed.
Lemma land_full : forall x y, r28 x -> (Z.land x y = RADIX_MASK <-> x = RADIX_MASK /\ y mod 2 ^ 28 = RADIX_MASK).
Proof.
  intros x y Hx. assert (Ex : Z.land x RADIX_MASK = x) by (rewrite land_ones28; apply Z.mod_small; exact Hx). split.
  - intro E. assert (X : x = RADIX_MASK).
    { rewrite <- Ex, <- E at 1. rewrite (Z.land_comm x y), Z.land_comm, <- Z.land_assoc, Z.land_diag, Z.land_comm. exact E. }
    split; [ exact X | ]. rewrite X in E. rewrite Z.land_comm, land_ones28 in E. exact E.
  - intros (-> & E). rewrite Z.land_comm, land_ones28. exact E.
Qed.
Lemma land_r28 : forall x y, r28 x -> 0 <= y -> r28 (Z.land x y).
Proof.
  intros x y Hx Hy. unfold r28 in *. assert (E : Z.land x y = Z.land (Z.land x y) (Z.ones 28)).
  { rewrite <- Z.land_assoc, (Z.land_comm y), Z.land_assoc. rewrite (Z.land_ones x 28), (Z.mod_small x) by lia. reflexivity. }
  rewrite E, Z.land_ones by lia. apply Z.mod_pos_bound. lia.
Qed.
Lemma r28_mod : forall x, r28 x -> x mod 2 ^ 28 = x.
Proof. intros x H. apply Z.mod_small. exact H. Qed.
Lemma land_all : forall x, r28 x -> Z.land LMASK x = x.
Proof. intros x Hx. unfold r28 in Hx. rewrite Z.land_comm. change LMASK with (mask true). rewrite land_mask by lia. reflexivity. Qed.
Definition low_half (n : bn) : Z := v28 (firstn 8 (limbs n)).
Lemma ge_p_ok : forall n, Forall r28 (limbs n) ->
  constant_time_greater_or_equal_p n = Some (mask (low_half n <? 2 ^ 224 - 2 ^ 112 - 1)).
Proof.
  intros [n0 n1 n2 n3 n4 n5 n6 n7 n8 n9 n10 n11 n12 n13 n14 n15] H. cbn [limbs] in H.
  do 8 (let Hx := fresh "R" in inversion H as [|? ? Hx HH]; subst; clear H; rename HH into H). clear H.
  unfold constant_time_greater_or_equal_p, low_half. cbn [limbs firstn v28].
  rewrite (land_all n0) by assumption.
  assert (E4 : chk_u32 (n4 + 1) = Some (n4 + 1)).
  { apply chk_u32_ok. unfold r28 in R3. lia. }
  rewrite E4, bind_Some. cbv beta zeta.
  assert (P : forall x, r28 x -> 0 <= x) by (intros x Hx; unfold r28 in Hx; lia).
  set (G := Z.land (Z.land (Z.land n0 n1) n2) n3).
  assert (RG : r28 G) by (unfold G; repeat apply land_r28; try (apply P; assumption); assumption).
  assert (EG : G = RADIX_MASK <-> n0 = RADIX_MASK /\ n1 = RADIX_MASK /\ n2 = RADIX_MASK /\ n3 = RADIX_MASK).
  { unfold G. rewrite !land_full by (repeat apply land_r28; try (apply P; assumption); assumption). rewrite !r28_mod by assumption. tauto. }
  assert (X4 : is_zero_mask (Z.lxor n4 RADIX_MASK) = mask (n4 =? RADIX_MASK)).
  { rewrite is_zero_mask_ok.
    - f_equal. apply eq_true_iff_eq. rewrite !Z.eqb_eq. apply Z.lxor_eq_0_iff.
    - apply lxor_range; unfold r28, RADIX_MASK in *; lia. }
  rewrite X4.
  set (K := Z.lor (Z.land G (n4 + 1)) (mask (n4 =? RADIX_MASK))).
  assert (Z4 : Z.land G (2 ^ 28) = 0).
  { rewrite <- (r28_mod G RG), <- land_ones28, <- Z.land_assoc. change (Z.land RADIX_MASK (2 ^ 28)) with 0. apply Z.land_0_r. }
  assert (EK : Z.land K n5 = RADIX_MASK <-> n5 = RADIX_MASK /\ (n4 = RADIX_MASK \/ (G = RADIX_MASK /\ n4 = RADIX_MASK - 1))).
  { unfold K. rewrite Z.land_comm, land_full by assumption. destruct (Z.eqb_spec n4 RADIX_MASK) as [->|N].
    - change (RADIX_MASK + 1) with (2 ^ 28). rewrite Z4, Z.lor_0_l. change (mask true mod 2 ^ 28) with RADIX_MASK. tauto.
    - cbn [mask]. rewrite Z.lor_0_r. unfold mask. rewrite Z.lor_0_r || idtac. rewrite r28_mod by (apply land_r28; [ assumption | unfold r28 in R3; lia ]).
      rewrite land_full by assumption. rewrite r28_mod by (unfold r28, RADIX_MASK in *; lia).
      split; [ intros (? & ? & ?); split; [ assumption | right; split; [ assumption | lia ] ] | intros (? & [?|(? & ?)]); [ contradiction | repeat split; try assumption; lia ] ]. }
  assert (K0 : 0 <= K). { unfold K. apply Z.lor_nonneg. split; [ apply Z.land_nonneg; left; apply P; exact RG | destruct (_ =? _); cbv; discriminate ]. }
  assert (RK : r28 (Z.land K n5)) by (rewrite Z.land_comm; apply land_r28; assumption).
  set (W := Z.land (Z.land (Z.land K n5) n6) n7).
  assert (RW6 : r28 (Z.land (Z.land K n5) n6)) by (apply land_r28; [ exact RK | apply P; assumption ]).
  assert (RW : r28 W) by (unfold W; apply land_r28; [ exact RW6 | apply P; assumption ]).
  assert (EW : W = RADIX_MASK <-> (n4 = RADIX_MASK \/ (G = RADIX_MASK /\ n4 = RADIX_MASK - 1)) /\ n5 = RADIX_MASK /\ n6 = RADIX_MASK /\ n7 = RADIX_MASK).
  { unfold W. rewrite (land_full _ n7 RW6), (land_full _ n6 RK), EK. rewrite !r28_mod by assumption. tauto. }
  rewrite is_zero_mask_ok by (apply lxor_range; unfold r28, RADIX_MASK in *; lia). rewrite not_mask. f_equal. f_equal.
  assert (EQ : (Z.lxor W RADIX_MASK =? 0) = true <-> ~ v28 [n0; n1; n2; n3; n4; n5; n6; n7] < 2 ^ 224 - 2 ^ 112 - 1).
  { rewrite Z.eqb_eq, Z.lxor_eq_0_iff, EW, EG. cbn [v28]. unfold r28, RADIX_MASK in *. clear - R R0 R1 R2 R3 R4 R5 R6.
    change (2 ^ 28) with 268435456 in *. change (2 ^ 224) with (268435456*(268435456*(268435456*(268435456*(268435456*(268435456*(268435456*268435456))))))).
    change (2 ^ 112) with (268435456*(268435456*(268435456*268435456))). split.
    - lia.
    - intro H. lia. }
  cbn [v28] in EQ. destruct (Z.ltb_spec (n0 + 2 ^ 28 * (n1 + 2 ^ 28 * (n2 + 2 ^ 28 * (n3 + 2 ^ 28 * (n4 + 2 ^ 28 * (n5 + 2 ^ 28 * (n6 + 2 ^ 28 * (n7 + 2 ^ 28 * 0)))))))) (2 ^ 224 - 2 ^ 112 - 1)) as [L|L];
    destruct (Z.lxor W RADIX_MASK =? 0); try reflexivity; exfalso.
  - apply (proj1 EQ eq_refl). exact L.
  - assert (B : false = true) by (apply (proj2 EQ); lia). discriminate B.
Qed.

Lemma des7_ok : forall b0 b1 b2 b3 b4 b5 b6, bytes [b0; b1; b2; b3; b4; b5; b6] -> des7 b0 b1 b2 b3 b4 b5 b6 = le_val [b0; b1; b2; b3; b4; b5; b6].
Proof.
  intros b0 b1 b2 b3 b4 b5 b6 B. do 7 (let Hx := fresh "R" in inversion B as [|? ? Hx HH]; subst; clear B; rename HH into B). clear B.
  unfold byte in *. unfold des7. cbn [fold_left le_val].
  rewrite Z.lor_0_l, Z.shiftl_0_r.
  rewrite (lor_shift 8), (lor_shift 16), (lor_shift 24), (lor_shift 32), (lor_shift 40), (lor_shift 48) by lia.
  lia.
Qed.
Lemma des_limbs_ok : forall n inp, length inp = (7 * n)%nat -> bytes inp -> des_limbs inp = digits28 (2 * n) (le_val inp).
Proof.
  induction n as [|n IH]; intros inp L B.
  - destruct inp; [ reflexivity | discriminate L ].
  - do 7 (destruct inp as [|? inp]; [ exfalso; cbn [length] in L; lia | ]). cbn [des_limbs].
    assert (B7 : bytes [z; z0; z1; z2; z3; z4; z5] /\ bytes inp).
    { unfold bytes in *. repeat match goal with H : Forall byte (_ :: _) |- _ => inversion H; clear H; subst end. split; [ | assumption ]. do 7 (apply Forall_cons; [ assumption | ]). apply Forall_nil. }
    destruct B7 as (B7 & Bt). rewrite (IH inp) by (assumption || (cbn [length] in L; lia)).
    rewrite des7_ok by exact B7. pose proof (le_val_range _ B7) as R. cbn [length] in R. change (256 ^ Z.of_nat 7) with (2 ^ 56) in R.
    replace (le_val (z :: z0 :: z1 :: z2 :: z3 :: z4 :: z5 :: inp)) with (le_val [z; z0; z1; z2; z3; z4; z5] + 2 ^ 56 * le_val inp) by (cbn [le_val]; ring).
    revert R. generalize (le_val [z; z0; z1; z2; z3; z4; z5]), (le_val inp). clear. intros v w R.
    replace (2 * S n)%nat with (S (S (2 * n))) by lia. cbn [digits28].
    assert (E1 : (v + 2 ^ 56 * w) / 2 ^ 28 = v / 2 ^ 28 + 2 ^ 28 * w).
    { replace (v + 2 ^ 56 * w) with (v + (2 ^ 28 * w) * 2 ^ 28) by (change (2 ^ 56) with (2 ^ 28 * 2 ^ 28); ring). apply Z.div_add. lia. }
    assert (S1 : 0 <= v / 2 ^ 28 < 2 ^ 28) by (split; [ apply Z.div_pos; lia | apply Z.div_lt_upper_bound; lia ]).
    rewrite E1. f_equal; [ | f_equal; [ | f_equal ] ].
    + unfold wrap32. rewrite <- Z.land_assoc. change (Z.land 4294967295 RADIX_MASK) with RADIX_MASK. rewrite land_ones28.
      replace (v + 2 ^ 56 * w) with (v + (2 ^ 28 * w) * 2 ^ 28) by (change (2 ^ 56) with (2 ^ 28 * 2 ^ 28); ring). rewrite (Z.mod_add v) by lia. reflexivity.
    + rewrite Z.shiftr_div_pow2 by lia. rewrite wrap32_small by lia. rewrite Z.mul_comm, Z.mod_add, Z.mod_small by lia. reflexivity.
    + rewrite Z.mul_comm, Z.div_add by lia. rewrite (Z.div_small (v / 2 ^ 28)) by lia. ring.
Qed.
Lemma firstn_digits : forall m n z, (m <= n)%nat -> firstn m (digits28 n z) = digits28 m z.
Proof. induction m as [|m IH]; intros n z H; [ reflexivity | ]. destruct n as [|n]; [ lia | ]. cbn [digits28 firstn]. rewrite IH by lia. reflexivity. Qed.

Theorem deserialize_exact : forall inp, length inp = 56%nat -> bytes inp -> exists n,
  deserialize_return_mask inp = Some (n, mask32 (le_val inp mod 2 ^ 224 <? 2 ^ 224 - 2 ^ 112 - 1)) /\
  deserialize inp = Some (n, le_val inp mod 2 ^ 224 <? 2 ^ 224 - 2 ^ 112 - 1) /\
  must_deserialize inp = (if le_val inp mod 2 ^ 224 <? 2 ^ 224 - 2 ^ 112 - 1 then Some n else None) /\
  limbs_upto (2 ^ 28 - 1) n /\ words_val 28 (limbs n) = le_val inp.
Proof.
  intros inp L B.
  pose proof (des_limbs_ok 8 inp L B) as E. change (2 * 8)%nat with 16%nat in E.
  destruct (of_limbs_ok (digits28 16 (le_val inp)) (digits28_length _ _)) as (n & H1 & H2). exists n.
  assert (R : Forall r28 (limbs n)) by (rewrite H2; apply digits28_r28).
  assert (M : deserialize_return_mask inp = Some (n, mask32 (le_val inp mod 2 ^ 224 <? 2 ^ 224 - 2 ^ 112 - 1))).
  { unfold deserialize_return_mask. rewrite E, H1, bind_Some. cbv beta. rewrite (ge_p_ok n R), bind_Some. cbv beta.
    unfold low_half. rewrite H2, firstn_digits by lia. rewrite v28_digits28. change (28 * Z.of_nat 8) with 224. destruct (_ <? _); reflexivity. }
  assert (D : deserialize inp = Some (n, le_val inp mod 2 ^ 224 <? 2 ^ 224 - 2 ^ 112 - 1)).
  { unfold deserialize. rewrite M, bind_Some. cbv beta iota. destruct (_ <? _); reflexivity. }
  split; [ exact M | ]. split; [ exact D | ]. split; [ unfold must_deserialize; rewrite D, bind_Some; cbv beta iota; reflexivity | ].
  split.
  - unfold limbs_upto. eapply Forall_impl; [ | exact R ]. intros x Hx. unfold r28 in Hx. cbv beta. lia.
  - rewrite words28_v, H2, v28_digits28. change (28 * Z.of_nat 16) with 448. pose proof (le_val_range inp B) as Q. rewrite L in Q. apply Z.mod_small. exact Q.
Qed.
(* both ways wrong *)
Definition too_big : list Z := le_bytes 56 (p448 + 1).
Definition small : list Z := le_bytes 56 (2 ^ 224 - 1).
Theorem deserialize_refuted :
  (exists inp, length inp = 56%nat /\ bytes inp /\ p448 <= le_val inp /\ must_deserialize inp <> None) /\
  (exists inp, length inp = 56%nat /\ bytes inp /\ le_val inp < p448 /\ must_deserialize inp = None).
Proof.
  split.
  - exists too_big. split; [ apply le_bytes_length | ]. split; [ apply le_bytes_bytes | ]. split; [ vm_compute; discriminate | ].
    intro E. vm_compute in E. discriminate E.
  - exists small. split; [ apply le_bytes_length | ]. split; [ apply le_bytes_bytes | ]. split; vm_compute; reflexivity.
Qed.
(* reading what dsa_like_serialize wrote *)
Theorem deserialize_serialize : forall a, limbs_upto (2 ^ 32 - 16) a -> exists s, dsa_like_serialize a = Some s /\
  forall n, must_deserialize s = Some n -> fe n = fe a /\ words_val 28 (limbs n) = fval (fe a).
Proof.
  intros a Ha. destruct (field_reduce a Ha) as (_ & _ & _ & E). exists (le_bytes 56 (fval (fe a))). split; [ exact E | ]. intros n H.
  destruct (deserialize_exact (le_bytes 56 (fval (fe a))) (le_bytes_length _ _) (le_bytes_bytes _ _)) as (n' & _ & _ & M & _ & V).
  rewrite H in M. destruct (_ <? _); [ | discriminate M ]. injection M as <-.
  assert (W : words_val 28 (limbs n) = fval (fe a)).
  { rewrite V, le_val_le_bytes. pose proof (fval_range (fe a)) as R. apply Z.mod_small. split; [ apply R | ]. apply Z.lt_trans with p448; [ apply R | reflexivity ]. }
  split; [ | exact W ]. unfold fe at 1. rewrite W. apply mkF_fval.
Qed.

(* is_on_curve *)
Lemma tight_iff : forall p, carried_point p <-> tight_point p.
Proof. intro p. unfold carried_point, tight_point. rewrite !carried_iff. tauto. Qed.
Lemma m39082 : mkF (-39082) = fopp (mkF 39082).
Proof. apply F_eq. rewrite fval_fopp, !fval_mkF. vm_compute. reflexivity. Qed.
Theorem is_on_curve_exact : forall p, carried_point p ->
  is_on_curve p = Some (low_zero (fsub (fmul (fe (px p)) (fe (py p))) (fmul (fe (pz p)) (fe (ExtendedPoint.pt p)))) &&
    low_zero (fsub (fsub (fmul (fe (py p)) (fe (py p))) (fmul (fe (px p)) (fe (px p))))
       (fadd (fmul (fe (pz p)) (fe (pz p))) (fmul (mkF (-39082)) (fmul (fe (ExtendedPoint.pt p)) (fe (ExtendedPoint.pt p)))))) &&
    negb (low_zero (fe (pz p)))).
Proof.
  intros p H. apply tight_iff in H. rewrite (is_on_curve_ok p H). rewrite !fe_F. change low_zero with low420. rewrite m39082.
  apply (f_equal (@Some bool)). apply f_equal2; [ | reflexivity ]. apply f_equal2; [ reflexivity | ]. apply f_equal. ring.
Qed.
Theorem is_on_curve_true : forall p, carried_point p -> on_twisted p -> is_on_curve p = Some (negb (low_zero (fe (pz p)))).
Proof.
  intros p H (_ & E1 & E2). rewrite (is_on_curve_exact p H), E1, E2.
  assert (K : forall x, low_zero (fsub x x) = true) by (intro x; replace (fsub x x) with fzero by ring; rewrite low_zero_eq; apply low420_zero).
  rewrite !K. reflexivity.
Qed.
Theorem represents_on_twisted : forall p Q, represents p Q -> on_twisted p.
Proof.
  intros p Q (Hx & Hy & Hz & Ht & HQ & NZ & ET & e & Ee & EX & EY). rewrite iso4_phi in EX, EY.
  pose proof (Isogeny.phi_curve Q HQ) as C. destruct (Isogeny.phi Q) as (a, b). cbn [fst snd] in EX, EY.
  split; [ exact NZ | ]. split; [ rewrite <- ET; ring | ].
  set (X := fe (px p)) in *. set (Y := fe (py p)) in *. set (Z := fe (pz p)) in *. set (T := fe (ExtendedPoint.pt p)) in *.
  rewrite Isogeny.twd_val in C. set (D := mkF (-39082)) in *.
  apply (fmul_cancel (fmul Z Z)); [ apply fmul_nz; exact NZ | ].
  transitivity (fsub (fmul (fmul Y Z) (fmul Y Z)) (fmul (fmul X Z) (fmul X Z))); [ ring | ].
  transitivity (fadd (fmul (fmul Z Z) (fmul Z Z)) (fmul D (fmul (fmul T Z) (fmul T Z)))); [ | ring ]. rewrite ET, EX, EY.
  assert (K : forall u, fmul (fmul e e) u = u) by (intro u; rewrite Ee; ring).
  transitivity (fmul (fmul (fmul e e) (fsub (fmul b b) (fmul a a))) (fmul (fmul Z Z) (fmul Z Z))); [ ring | ].
  transitivity (fmul (fadd fone (fmul D (fmul (fmul (fmul e e) (fmul a a)) (fmul (fmul e e) (fmul b b))))) (fmul (fmul Z Z) (fmul Z Z))); [ | ring ].
  rewrite !K, C. reflexivity.
Qed.
(* a point at infinity is not the only point refused, and not only points of the curve are accepted *)
Definition far : point := MkPoint BIG_ZERO (BN 0 0 0 0 0 0 0 0 0 0 0 0 0 0 0 1) (BN 0 0 0 0 0 0 0 0 0 0 0 0 0 0 0 1) BIG_ZERO.
Definition off : point := MkPoint BIG_ZERO (BN 34257150 82408013 221334713 200032774 143445599 98474635 137379286 51767911
  196778514 214245206 130575175 86793128 45516777 163232538 42308259 94608161) BIG_ONE BIG_ZERO.
Lemma carried_check : forall a, forallb (fun x => (0 <=? x) && (x <=? 2 ^ 28 + 2 ^ 10)) (limbs a) = true -> carried a.
Proof.
  intros a H. apply Forall_forall. intros x Hx. rewrite forallb_forall in H. specialize (H x Hx). apply andb_prop in H.
  destruct H as (H1 & H2). apply Z.leb_le in H1. apply Z.leb_le in H2. split; assumption.
Qed.
Lemma far_ok : carried_point far.
Proof. unfold carried_point. repeat apply conj; apply carried_check; reflexivity. Qed.
Lemma off_ok : carried_point off.
Proof. unfold carried_point. repeat apply conj; apply carried_check; reflexivity. Qed.
Theorem is_on_curve_refuted :
  (exists p Q, represents p Q /\ is_on_curve p = Some false) /\
  (exists p, carried_point p /\ ~ on_twisted p /\ is_on_curve p = Some true).
Proof.
  split.
  - exists far, ezero. split; [ | vm_compute; reflexivity ]. destruct far_ok as (A & B & C & D).
    split; [ exact A | ]. split; [ exact B | ]. split; [ exact C | ]. split; [ exact D | ]. split; [ apply ezero_on | ].
    assert (N : fe (pz far) <> fzero). { intro E. apply (f_equal fval) in E. vm_compute in E. discriminate E. }
    assert (X0 : fe (px far) = fzero) by (apply F_eq; vm_compute; reflexivity).
    assert (T0 : fe (ExtendedPoint.pt far) = fzero) by (apply F_eq; vm_compute; reflexivity).
    split; [ exact N | ]. split; [ rewrite X0, T0; ring | ]. exists fone. split; [ ring | ].
    assert (I : iso4 ezero = (fzero, fone)). { apply injective_projections; apply F_eq; vm_compute; reflexivity. }
    rewrite I. cbn [fst snd]. split; [ rewrite X0; ring | ]. change (py far) with (pz far). ring.
  - exists off. split; [ exact off_ok | ]. split; [ | vm_compute; reflexivity ]. intros (_ & _ & E). apply (f_equal fval) in E.
    vm_compute in E. discriminate E.
Qed.

(* scalars *)
Theorem montgomery : forall x y, words32 x -> reduced y -> exists r, montgomery_multiply x y = Some r /\ reduced r /\
  (sc r * 2 ^ 448) mod q448 = (sc x * sc y) mod q448.
Proof.
  intros x y Hx Hy. apply words32_iff in Hx. apply reduced_iff in Hy. destruct (montgomery_ok x y Hx Hy) as (r & H1 & H2 & H3).
  exists r. split; [ exact H1 | ]. split; [ apply reduced_iff; exact H2 | ]. rewrite !sc_v. exact H3.
Qed.
Theorem mul_any : forall x y, words32 x -> reduced y -> returns_sc (smul x y) (sc x * sc y).
Proof.
  intros x y Hx Hy. apply words32_iff in Hx. apply reduced_iff in Hy. destruct (smul_ok x y Hx Hy) as (r & H1 & H2 & H3).
  exists r. split; [ exact H1 | ]. split; [ apply reduced_iff; exact H2 | ]. rewrite !sc_v. exact H3.
Qed.
Lemma short_word_none : forall n j b k out, Z.of_nat (length b) < 56 -> 0 <= k <= Z.of_nat (length b) ->
  short_word n j b 56 k out = None \/ exists out', short_word n j b 56 k out = Some (out', k + Z.of_nat n) /\ k + Z.of_nat n <= Z.of_nat (length b).
Proof.
  induction n as [|n IH]; intros j b k out L K.
  - right. exists out. cbn [short_word]. change (Z.of_nat 0) with 0. rewrite Z.add_0_r. split; [ reflexivity | lia ].
  - cbn [short_word]. rewrite Z.geb_leb. destruct (Z.leb_spec 56 k); [ lia | ].
    destruct (Z.eq_dec k (Z.of_nat (length b))) as [->|N].
    + left. unfold znth. rewrite Z.ltb_irrefl, andb_false_r. reflexivity.
    + destruct (znth b k) as [bk|] eqn:E; [ rewrite bind_Some; cbv beta | left; reflexivity ].
      destruct (IH (j + 1) b (k + 1) (Z.lor out (shl32 bk (8 * j))) L ltac:(lia)) as [H1|(o & H1 & H2)]; [ left; exact H1 | right ].
      exists o. rewrite H1. replace (k + 1 + Z.of_nat n) with (k + Z.of_nat (S n)) in * by lia. split; [ reflexivity | exact H2 ].
Qed.
Lemma short_words_none : forall w b k, Z.of_nat (length b) < 56 -> 0 <= k -> k + 4 * Z.of_nat w = 56 -> k <= Z.of_nat (length b) -> short_words w b 56 k = None.
Proof.
  induction w as [|w IH]; intros b k L K E R; [ lia | ]. cbn [short_words].
  destruct (short_word_none 4 0 b k 0 L ltac:(lia)) as [->|(o & -> & H)]; [ reflexivity | ]. rewrite bind_Some. cbv beta iota.
  change (Z.of_nat 4) with 4 in *. rewrite IH by lia. reflexivity.
Qed.
Theorem decode_exact : forall b, bytes b ->
  (decode b = None <-> (length b < 56)%nat) /\ ((56 <= length b)%nat -> returns_sc (decode b) (le_val (firstn 56 b))).
Proof.
  intros b B.
  assert (G : (56 <= length b)%nat -> returns_sc (decode b) (le_val (firstn 56 b))).
  { intro L. destruct (decode_ok (firstn 56 b) (skipn 56 b)) as (r & H1 & H2 & H3).
    - apply bytes_firstn. exact B.
    - rewrite firstn_length. lia.
    - rewrite firstn_skipn in H1. exists r. split; [ exact H1 | ]. split; [ apply reduced_iff; exact H2 | rewrite sc_v; exact H3 ]. }
  split; [ | exact G ]. split.
  - intro E. destruct (le_lt_dec 56 (length b)) as [L|L]; [ | exact L ]. destruct (G L) as (r & K & _). rewrite E in K. discriminate K.
  - intro L. unfold decode, decode_short, SCALAR_BYTES. rewrite short_words_none by lia. reflexivity.
Qed.
