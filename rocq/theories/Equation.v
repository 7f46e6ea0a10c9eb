(* The verification equation in the form of RFC 8032, and acceptance of honest signatures. *)
From Coq Require Import ZArith List Bool Lia Znumtheory Ring.
From Verif Require Import SpecField SpecBytes SpecScalar SpecCurve SpecDecode SpecEd448 SpecVerify Base Arith Bytes Constants32 BigNumber ScalarModel
  Niels Errors ExtendedPoint Eddsa Goldilocks.
From Verif Require Import LimbOps2 Field FieldOps ScalarProofs Edwards Isogeny PointOps PointMul CombMul BaseTables Recode DoubleMul Decode Total Ed448 Verify Order.
Import ListNotations.
Open Scope Z_scope.

Lemma mod4q : forall a b, (a - b) mod q448 = 0 -> (a - b) mod 4 = 0 -> (a - b) mod (4 * q448) = 0.
Proof.
  intros a b H1 H2. apply Zdivide_mod. apply Zmod_divide in H1; [ | discriminate ]. apply Zmod_divide in H2; [ | discriminate ].
  destruct H1 as (u & Hu). destruct H2 as (v & Hv). rewrite Hu in *.
  assert (D : (4 | u)).
  { apply (Gauss 4 q448 u); [ exists v; rewrite Z.mul_comm; exact Hv | ].
    apply rel_prime_sym. apply prime_rel_prime; [ exact PrimeQ.q448_prime | ].
    intro D. apply Z.divide_pos_le in D; [ | lia ]. revert D. vm_compute. intro D. apply D. reflexivity. }
  destruct D as (w & ->). exists w. ring.
Qed.
Lemma q_mod4 : (q448 + 1) mod 4 = 0.
Proof. reflexivity. Qed.
Lemma mod_mul0 : forall a m, m <> 0 -> (a * m) mod m = 0.
Proof. intros a m Hm. apply Z.mod_mul. exact Hm. Qed.
Lemma m4_part : forall A, on_curve A -> emul 4 (emul m4 A) = subgroup_part A.
Proof.
  intros A HA. unfold subgroup_part. rewrite <- emul_mul by exact HA. apply cong_4q; [ exact HA | ]. apply mod4q.
  - rewrite Zminus_mod, m4_cong. reflexivity.
  - rewrite Zminus_mod, q_mod4, Z.mul_comm, mod_mul0 by lia. reflexivity.
Qed.
Lemma mu_cong : forall k A, on_curve A -> emul 4 (emul k (emul (meff 4) (emul m4 A))) = emul (4 * k) A.
Proof.
  intros k A HA. generalize (meff_cong 4). generalize (meff 4). intros mu Hmu. generalize m4_cong. generalize m4. intros m Hm.
  rewrite <- (emul_mul mu m A HA), <- (emul_mul k (mu * m) A HA), <- (emul_mul 4 (k * (mu * m)) A HA). apply cong_4q; [ exact HA | ]. apply mod4q.
  - replace (4 * (k * (mu * m)) - 4 * k) with (k * ((mu * (4 * m)) - 4)) by ring.
    rewrite Z.mul_mod by discriminate. rewrite (Zminus_mod (mu * (4 * m))), (Z.mul_mod mu), Hm, Hmu by discriminate.
    change (((4 mod q448 * 1) mod q448 - 4 mod q448) mod q448) with 0. rewrite Z.mul_0_r. reflexivity.
  - replace (4 * (k * (mu * m)) - 4 * k) with (k * (mu * m - 1) * 4) by ring. apply mod_mul0. lia.
Qed.
Lemma mod_4q_mul : forall a A, on_curve A -> emul (4 * (a mod q448)) A = emul (4 * a) A.
Proof.
  intros a A HA. apply cong_4q; [ exact HA | ]. replace (4 * (a mod q448) - 4 * a) with (4 * (a mod q448 - a)) by ring.
  rewrite Zmult_mod_distr_l, Zminus_mod, Z.mod_mod, Z.sub_diag by discriminate. reflexivity.
Qed.

Lemma some_inj : forall (T : Type) (a b : T), Some a = Some b -> a = b.
Proof. intros T a b E. congruence. Qed.
Lemma eadd_eq : forall X Y X' Y', X = X' -> Y = Y' -> eadd X Y = eadd X' Y'.
Proof. intros; subst; reflexivity. Qed.
Lemma iso4_phi : forall P, iso4 P = phi P.
Proof. intros (x, y). reflexivity. Qed.
(* encodings of points *)
Lemma enc_eencode : forall x y, enc_y (eencode (x, y)) = fval y /\ enc_sign (eencode (x, y)) = Z.odd (fval x) /\ enc_pad_ok (eencode (x, y)) = true.
Proof.
  intros x y. unfold eencode. destruct (enc_fields (le_bytes 56 (fval y)) (128 * (fval x mod 2)) (le_bytes_length _ _)) as (E1 & E2 & E3).
  rewrite E1, E2, E3, le_val_le_bytes. pose proof (fval_range y) as R. split; [ | split ].
  - apply Z.mod_small. unfold p448 in R. lia.
  - rewrite Zmod_odd. destruct (Z.odd (fval x)); reflexivity.
  - rewrite Zmod_odd. destruct (Z.odd (fval x)); reflexivity.
Qed.
Lemma eencode_len : forall P, length (eencode P) = 57%nat.
Proof. intros (x, y). unfold eencode. rewrite app_length, le_bytes_length. reflexivity. Qed.
Lemma eencode_bytes : forall P, bytes (eencode P).
Proof.
  intros (x, y). unfold eencode. apply bytes_app. split; [ apply le_bytes_bytes | ]. constructor; [ | constructor ].
  unfold byte. pose proof (Z.mod_pos_bound (fval x) 2 ltac:(lia)). lia.
Qed.
Lemma mkF_fval : forall x, mkF (fval x) = x.
Proof. intro x. apply F_eq. rewrite fval_mkF. apply Z.mod_small. apply fval_range. Qed.
Lemma denotes_eencode : forall P, on_curve P -> denotes (eencode P) P.
Proof.
  intros (x, y) H. destruct (enc_eencode x y) as (E1 & E2 & _). unfold denotes. rewrite E1, E2, mkF_fval. cbn [fst snd].
  split; [ exact H | ]. split; [ reflexivity | ]. intros _. reflexivity.
Qed.
Lemma decodable_denotes : forall src P, length src = 57%nat -> enc_pad_ok src = true -> denotes src P ->
  (decodable src <-> range_test (enc_y src) = true /\ low_zero (denominator (fst P) (snd P)) = false).
Proof.
  intros src (x, y) L PO (H & Hy & Hs). cbn [fst snd] in *. unfold decodable. rewrite <- Hy.
  pose proof (curve_candidate x y _ H Hs) as C. split.
  - intros (_ & _ & T & x' & C' & _ & D). rewrite <- (candidate_unique _ _ _ _ C' C). auto.
  - intros (T & D). split; [ exact L | ]. split; [ exact PO | ]. split; [ exact T | ]. exists x. split; [ exact C | ].
    split; [ | exact D ]. rewrite (proj2 (residue_zero y _ x C) H). rewrite low_zero_eq. apply low420_zero.
Qed.
Lemma decodable_eencode : forall P, on_curve P -> (decodable (eencode P) <-> decoder_tests P).
Proof.
  intros (x, y) H. destruct (enc_eencode x y) as (E1 & E2 & E3).
  rewrite (decodable_denotes (eencode (x, y)) (x, y) (eencode_len _) E3 (denotes_eencode _ H)), E1. reflexivity.
Qed.
(* a point of the group of B other than 0 has y <> 0 *)
Lemma y0_order4 : forall x, on_curve (x, fzero) -> emul 4 (x, fzero) = ezero.
Proof.
  intros x H. change 4 with (2 * 2). rewrite emul_mul by exact H. rewrite (emul_2 (x, fzero)) by exact H. rewrite (edouble x fzero H).
  assert (E : fmul x x = fone).
  { unfold on_curve in H. transitivity (fadd (fmul x x) (fmul fzero fzero)); [ ring | ]. rewrite H. ring. }
  assert (K : (fdiv (fmul (fmul (mkF 2) x) fzero) (fadd (fmul x x) (fmul fzero fzero)),
    fdiv (fsub (fmul fzero fzero) (fmul x x)) (fsub (mkF 2) (fadd (fmul x x) (fmul fzero fzero)))) = (fzero, fopp fone)).
  { rewrite E. rewrite !fdiv_def.
    replace (fsub (mkF 2) (fadd fone (fmul fzero fzero))) with fone by ring. replace (finv fone) with fone; [ f_equal; ring | ].
    transitivity (fmul (finv fone) fone); [ symmetry; apply finv_l; exact fone_nz | ring ]. }
  rewrite K, <- pt4_2, <- emul_mul by exact pt4_on. exact pt4_4.
Qed.
Lemma base_y_nz : forall n, snd (emul n ebase) <> fzero.
Proof.
  intros n E. pose proof (emul_on n ebase ebase_on) as H.
  assert (Z : emul n ebase = ezero).
  { apply (emul_coprime (emul n ebase) 4 q448 H).
    - apply rel_prime_sym. apply prime_rel_prime; [ exact PrimeQ.q448_prime | ].
      intro D. apply Z.divide_pos_le in D; [ | lia ]. revert D. vm_compute. intro D. apply D. reflexivity.
    - destruct (emul n ebase) as (x, y). cbn [snd] in E. subst y. apply y0_order4. exact H.
    - rewrite <- emul_mul by exact ebase_on. rewrite Z.mul_comm, emul_mul, order_ok by exact ebase_on. apply emul_ezero. }
  rewrite Z in E. Transparent ezero. cbn [ezero snd] in E. Opaque ezero. exact (fone_nz E).
Qed.
Lemma bytes_eqb_eq : forall a b, bytes_eqb a b = true <-> a = b.
Proof.
  induction a as [|x a IH]; intros [|y b]; cbn [bytes_eqb]; split; intro H; try discriminate; try reflexivity.
  - apply andb_prop in H. destruct H as (H1 & H2). apply Z.eqb_eq in H1. apply IH in H2. congruence.
  - injection H as -> ->. rewrite Z.eqb_refl. apply IH. reflexivity.
Qed.
Lemma enc_zero57 : enc_y zero_public_key = 0.
Proof. reflexivity. Qed.
Lemma eencode_not_zero : forall n, eencode (emul n ebase) <> zero_public_key.
Proof.
  intros n E. apply (base_y_nz n). destruct (emul n ebase) as (x, y). cbn [snd]. pose proof (proj1 (enc_eencode x y)) as K.
  rewrite E, enc_zero57 in K. apply fval_zero. symmetry. exact K.
Qed.
Lemma subgroup_base : forall n, subgroup_part (emul n ebase) = emul n ebase.
Proof.
  intro n. unfold subgroup_part. rewrite <- emul_mul by exact ebase_on. apply base_inj.
  rewrite Z.mul_add_distr_r, Z.mul_1_l, Z.add_comm, (Z.mul_comm q448). apply Z.mod_add. discriminate.
Qed.
Section Hash.
Variable xof : list Z -> nat -> list Z.
Hypothesis XOF : is_xof xof.

Lemma eadd_move : forall X Y W, on_curve X -> on_curve Y -> on_curve W -> (X = eadd (eneg Y) W <-> W = eadd X Y).
Proof.
  intros X Y W HX HY HW. split; intro E.
  - rewrite E, (eadd_comm _ Y), <- eadd_assoc, eadd_neg, eadd_0_l by (try apply eneg_on; assumption). reflexivity.
  - rewrite E, (eadd_comm X Y), <- eadd_assoc, eadd_neg_l, eadd_0_l by (try apply eneg_on; assumption). reflexivity.
Qed.
Theorem verify_equation : forall pub sig message A R, bytes pub -> bytes sig -> (114 <= length sig)%nat ->
  decodable pub -> decodable (firstn 57 sig) -> denotes pub A -> denotes (firstn 57 sig) R ->
  let k := rfc_challenge xof (firstn 57 sig) (eencode (subgroup_part A)) message in
  let S := le_val (firstn 57 (skipn 57 sig)) in
  exists r4 pk P Q, compared xof pub sig message r4 pk /\ isP r4 P /\ emul 4 P = emul 4 R /\
    isP pk Q /\ emul 4 Q = eadd (emul (4 * S) ebase) (eneg (emul (4 * k) A)) /\
    (fsub (fmul (F (py r4)) (F (px pk))) (fmul (F (px r4)) (F (py pk))) = fzero <-> rfc_equation S R k A) /\
    dsa_verify xof pub sig message = Some (Ok (low_zero (fsub (fmul (F (py r4)) (F (px pk))) (fmul (F (px r4)) (F (py pk)))))).
Proof.
  intros pub sig message A R B1 B2 L D1 D2 N1 N2 k S.
  pose proof (proj1 N1) as CA. pose proof (proj1 N2) as CR.
  pose proof (denotes_dpoint _ _ N1) as EA. pose proof (denotes_dpoint _ _ N2) as ER.
  destruct (verify_good xof XOF pub sig message B1 B2 L D1 D2)
    as (p & r & penc & r4 & pk & b & E1 & E2 & E3 & T4 & Tk & H4 & Hk & Em & Cm & Ev).
  unfold sig_R, sig_S in *. rewrite <- EA in Hk. rewrite <- ER in H4. specialize (Hk CA). specialize (H4 CR).
  assert (Epenc : penc = eencode (subgroup_part A)).
  { destruct (decode_good pub B1 D1) as (p' & E1' & _ & Hp). rewrite E1 in E1'. injection E1' as <-.
    rewrite <- EA in Hp. specialize (Hp CA). rewrite (encode_point_ok p _ (proj1 Hp)) in E3. apply some_inj in E3. rewrite <- E3.
    rewrite m4_part by exact CA. reflexivity. }
  rewrite Epenc in Hk. fold k in Hk. fold S in Hk. clear Epenc E3 E1 E2 p r penc. clearbody k S.
  set (P := emul (meff 4) (emul m4 R)) in *.
  set (Q := eadd (emul ((- k) mod q448) (emul (meff 4) (emul m4 A))) (emul (S mod q448) ebase)) in *.
  assert (CP : on_curve P) by (unfold P; repeat apply emul_on; exact CR).
  assert (CQ : on_curve Q) by (unfold Q; apply eadd_on; repeat apply emul_on; (exact CA || exact ebase_on)).
  assert (E4P : emul 4 P = emul 4 R).
  { unfold P. pose proof (mu_cong 1 R CR) as K. rewrite emul_1 in K. exact K. }
  assert (E4Q : emul 4 Q = eadd (emul (4 * S) ebase) (eneg (emul (4 * k) A))).
  { unfold Q. rewrite emul_eadd by (repeat apply emul_on; (exact CA || exact ebase_on)).
    rewrite mu_cong by exact CA. rewrite mod_4q_mul by exact CA. rewrite <- (emul_mul 4) by exact ebase_on.
    rewrite mod_4q_mul by exact ebase_on. rewrite eadd_comm. apply eadd_eq; [ reflexivity | ]. rewrite <- emul_opp. replace (- (4 * k)) with (4 * - k) by ring. reflexivity. }
  clearbody P Q. pose proof (cross_zero _ _ _ _ _ _ P Q (proj2 (proj1 H4)) (proj2 (proj1 Hk))) as CZ.
  rewrite (mod_equal_ok r4 pk T4 Tk) in Em. apply some_inj in Em. rewrite <- Em in Ev.
  exists r4, pk, P, Q. split; [ exact Cm | ]. split; [ exact H4 | ]. split; [ exact E4P | ]. split; [ exact Hk | ]. split; [ exact E4Q | ]. split; [ | exact Ev ].
  rewrite CZ, E4P, E4Q. unfold rfc_equation.
  rewrite (eadd_comm (emul (4 * S) ebase)). apply eadd_move; apply emul_on; [ exact CR | exact CA | exact ebase_on ].
Qed.
Theorem honest_with : forall s prefix message,
  let A := eencode (emul s ebase) in
  let sig := rfc_sign_with xof s prefix A message in
  ed448_verify xof A sig message = Some (Ok true) <-> decodable A /\ decodable (firstn 57 sig).
Proof.
  intros s prefix message. cbv zeta. unfold rfc_sign_with. cbv zeta.
  set (r := le_val (xof (rfc_dom ++ prefix ++ message) 114)). clearbody r.
  set (k := le_val (xof (rfc_dom ++ eencode (emul r ebase) ++ eencode (emul s ebase) ++ message) 114)).
  pose proof (emul_on r ebase ebase_on) as HR. pose proof (emul_on s ebase ebase_on) as HA.
  set (sig := eencode (emul r ebase) ++ le_bytes 57 ((r + k * s) mod q448)).
  assert (F1 : firstn 57 sig = eencode (emul r ebase)).
  { unfold sig. rewrite firstn_app, eencode_len, Nat.sub_diag, firstn_O, app_nil_r. apply firstn_all2. rewrite eencode_len. apply Nat.le_refl. }
  assert (F2 : firstn 57 (skipn 57 sig) = le_bytes 57 ((r + k * s) mod q448)).
  { unfold sig. rewrite skipn_app, eencode_len, Nat.sub_diag, skipn_O, skipn_all2, app_nil_l by (rewrite eencode_len; apply Nat.le_refl).
    apply firstn_all2. rewrite le_bytes_length. apply Nat.le_refl. }
  assert (L : length sig = 114%nat) by (unfold sig; rewrite app_length, eencode_len, le_bytes_length; reflexivity).
  assert (B : bytes sig) by (unfold sig; apply bytes_app; split; [ apply eencode_bytes | apply le_bytes_bytes ]).
  assert (Z1 : bytes_eqb (eencode (emul s ebase)) zero_public_key = false).
  { apply not_true_is_false. intro E. apply bytes_eqb_eq in E. exact (eencode_not_zero s E). }
  assert (Z2 : bytes_eqb sig zero_signature = false).
  { apply not_true_is_false. intro E. apply bytes_eqb_eq in E. rewrite E in F1. exact (eencode_not_zero r (eq_sym F1)). }
  split; intro H.
  - pose proof (verify_classes xof XOF (eencode (emul s ebase)) sig message (eencode_bytes _) B) as C.
    unfold verify_class in C. rewrite Z1, Z2, eencode_len, L in C. cbn [orb negb Nat.eqb Nat.ltb Nat.leb] in C.
    unfold sig_R in C.
    destruct (decodable_dec (eencode (emul s ebase))) as [D1|D1]; [ | rewrite H in C; discriminate C ].
    destruct (decodable_dec (firstn 57 sig)) as [D2|D2]; [ split; assumption | rewrite H in C; discriminate C ].
  - destruct H as (D1 & D2). unfold ed448_verify. rewrite Z1, Z2. cbn [orb].
    assert (N2 : denotes (firstn 57 sig) (emul r ebase)) by (rewrite F1; apply denotes_eencode; exact HR).
    destruct (verify_equation (eencode (emul s ebase)) sig message _ _ (eencode_bytes _) B ltac:(rewrite L; apply Nat.le_refl) D1 D2 (denotes_eencode _ HA) N2)
      as (r4 & pk & P & Q & _ & _ & _ & _ & _ & CZ & E).
    rewrite E. rewrite (proj2 CZ).
    + rewrite low_zero_eq, low420_zero. reflexivity.
    + rewrite F1, F2, subgroup_base. unfold rfc_challenge. fold k. clearbody k. clear - HR HA.
      unfold rfc_equation. rewrite le_val_le_bytes.
      rewrite (Z.mod_small (_ mod _)).
      2:{ pose proof (Z.mod_pos_bound (r + k * s) q448 ltac:(reflexivity)) as K. revert K. generalize ((r + k * s) mod q448). intros x K. unfold q448 in K. lia. }
      rewrite mod_4q_mul by exact ebase_on. rewrite <- !emul_mul by exact ebase_on. rewrite <- emul_add by exact ebase_on.
      replace (4 * (r + k * s)) with (4 * r + 4 * k * s) by ring. reflexivity.
Qed.
Theorem honest_verifies : forall key message pub sig, length key = 57%nat -> bytes key ->
  ed448_derive_public xof key = Some pub -> ed448_sign xof key message = Some sig ->
  (ed448_verify xof pub sig message = Some (Ok true) <-> decodable pub /\ decodable (firstn 57 sig)).
Proof.
  intros key message pub sig L B E1 E2. rewrite derive_public_ok in E1 by assumption. rewrite sign_ok in E2 by assumption.
  apply some_inj in E1. apply some_inj in E2. destruct (enc_sign key); rewrite <- E1, <- E2.
  - apply honest_with.
  - unfold rfc_sign, rfc_public. cbv zeta. apply honest_with.
Qed.
End Hash.
