(* What acceptance by the verifier means, and public keys that differ by a point of small order. *)
From Coq Require Import ZArith Znumtheory List Bool Lia.
From Verif Require Import SpecField SpecBytes SpecScalar SpecCurve SpecDecode SpecEd448 SpecVerify SpecInternal.
From Verif Require Import Base Arith Bytes BigNumber ScalarModel ExtendedPoint Errors Eddsa Goldilocks.
From Verif Require Import Field FieldOps Edwards PointOps Decode Ed448 Verify Order Equation Facts Internal.
Import ListNotations.
Open Scope Z_scope.
Local Opaque decodable.

Lemma low_zero_iff : forall v, low_zero v = true <-> exists j, 0 <= j < 2 ^ 28 /\ fval v = j * 2 ^ 420.
Proof.
  intro v. unfold low_zero. rewrite Z.eqb_eq. pose proof (fval_range v) as R. split.
  - intro E. exists (fval v / 2 ^ 420). pose proof (Z.div_mod (fval v) (2 ^ 420) ltac:(discriminate)) as D. rewrite E, Z.add_0_r in D. split; [ | lia ].
    split; [ apply Z.div_pos; [ lia | reflexivity ] | apply Z.div_lt_upper_bound; [ reflexivity | ] ].
    unfold p448 in R. change (2 ^ 420 * 2 ^ 28) with (2 ^ 448). lia.
  - intros (j & _ & ->). apply Z.mod_mul. discriminate.
Qed.
Lemma cross_F : forall p1 p2, cross p1 p2 = fsub (fmul (F (py p1)) (F (px p2))) (fmul (F (px p1)) (F (py p2))).
Proof. intros p1 p2. unfold cross. rewrite !fe_F. reflexivity. Qed.

Section Hash.
Variable xof : list Z -> nat -> list Z.
Hypothesis XOF : is_xof xof.

Lemma compared_fun : forall pub sig message a b a' b',
  compared xof pub sig message a b -> compared xof pub sig message a' b' -> a = a' /\ b = b'.
Proof.
  intros pub sig message a b a' b' (p & p2 & r & penc & c & c' & s & H1 & H2 & H3 & H4 & H5 & H6 & H7 & H8 & H9)
    (q & q2 & t & qenc & d & d' & u & G1 & G2 & G3 & G4 & G5 & G6 & G7 & G8 & G9).
  rewrite H1 in G1. injection G1 as <-. rewrite H2 in G2. apply some_inj in G2. subst q2. rewrite H3 in G3. injection G3 as <-.
  rewrite H4 in G4. apply some_inj in G4. rewrite H5 in G5. apply some_inj in G5. subst qenc. rewrite H6 in G6. apply some_inj in G6. subst d.
  rewrite H7 in G7. apply some_inj in G7. subst d'. rewrite H8 in G8. apply some_inj in G8. subst u. rewrite H9 in G9. apply some_inj in G9. auto.
Qed.
(* the comparison, exactly *)
Theorem verify_exact : forall pub sig message A R, bytes pub -> bytes sig -> (114 <= length sig)%nat -> ~ zero_input pub sig ->
  decodable pub -> decodable (firstn 57 sig) -> denotes pub A -> denotes (firstn 57 sig) R ->
  let k := rfc_challenge xof (firstn 57 sig) (eencode (subgroup_part A)) message in
  let S := le_val (firstn 57 (skipn 57 sig)) in
  exists r4 pk P Q, compared xof pub sig message r4 pk /\
    represents r4 P /\ emul 4 P = emul 4 R /\
    represents pk Q /\ emul 4 Q = eadd (emul (4 * S) ebase) (eneg (emul (4 * k) A)) /\
    (cross r4 pk = fzero <-> rfc_equation S R k A) /\
    ed448_verify xof pub sig message = Some (Ok (low_zero (cross r4 pk))).
Proof.
  intros pub sig message A R B1 B2 L NZ D1 D2 N1 N2 k S.
  destruct (verify_sound xof XOF pub sig message A R B1 B2 L NZ D1 D2 N1 N2) as (r4 & pk & P & Q & H1 & H2 & H3 & H4 & H5 & H6 & H7).
  exists r4, pk, P, Q. rewrite !rep_iff, cross_F. tauto.
Qed.
(* acceptance means the equation, or a cross product that is one of 2^28 - 1 values *)
Theorem verify_true : forall pub sig message A R, bytes pub -> bytes sig -> ~ zero_input pub sig ->
  denotes pub A -> denotes (firstn 57 sig) R -> ed448_verify xof pub sig message = Some (Ok true) ->
  rfc_equation (le_val (firstn 57 (skipn 57 sig))) R (rfc_challenge xof (firstn 57 sig) (eencode (subgroup_part A)) message) A \/
  exists r4 pk j, compared xof pub sig message r4 pk /\ 0 < j < 2 ^ 28 /\ fval (cross r4 pk) = j * 2 ^ 420.
Proof.
  intros pub sig message A R B1 B2 NZ N1 N2 V.
  destruct (verify_errors xof XOF pub sig message B1 B2) as (_ & _ & _ & _ & _ & (K & _) & _).
  destruct K as (_ & D1 & L & D2); [ exists true; exact V | ].
  destruct (verify_exact pub sig message A R B1 B2 L NZ D1 D2 N1 N2) as (r4 & pk & P & Q & H1 & _ & _ & _ & _ & H6 & H7). cbv zeta in *.
  rewrite V in H7. apply some_inj in H7. injection H7 as H7. symmetry in H7. apply low_zero_iff in H7. destruct H7 as (j & Hj & E).
  destruct (Z.eq_dec j 0) as [->|J].
  - left. apply H6. apply F_eq. rewrite E, fval_fzero. reflexivity.
  - right. exists r4, pk, j. split; [ exact H1 | ]. split; [ lia | exact E ].
Qed.
(* two public keys that differ by a point of order dividing 4 *)
Theorem alias : forall pub pub' sig message A T R, bytes pub -> bytes pub' -> bytes sig -> (114 <= length sig)%nat ->
  ~ zero_input pub sig -> ~ zero_input pub' sig ->
  decodable pub -> decodable pub' -> decodable (firstn 57 sig) ->
  denotes pub A -> denotes pub' (eadd A T) -> on_curve T -> emul 4 T = ezero -> denotes (firstn 57 sig) R ->
  let eq := rfc_equation (le_val (firstn 57 (skipn 57 sig))) R (rfc_challenge xof (firstn 57 sig) (eencode (subgroup_part A)) message) A in
  exists r4 pk pk', compared xof pub sig message r4 pk /\ compared xof pub' sig message r4 pk' /\
    (cross r4 pk = fzero <-> eq) /\ (cross r4 pk' = fzero <-> eq) /\
    ed448_verify xof pub sig message = Some (Ok (low_zero (cross r4 pk))) /\
    ed448_verify xof pub' sig message = Some (Ok (low_zero (cross r4 pk'))).
Proof.
  intros pub pub' sig message A T R B1 B1' B2 L NZ NZ' D1 D1' D2 N1 N1' CT T4 N2. cbv zeta.
  pose proof (proj1 N1) as CA.
  destruct (verify_exact pub sig message A R B1 B2 L NZ D1 D2 N1 N2) as (r4 & pk & P & Q & H1 & _ & _ & _ & _ & H6 & H7).
  destruct (verify_exact pub' sig message (eadd A T) R B1' B2 L NZ' D1' D2 N1' N2) as (r4' & pk' & P' & Q' & G1 & _ & _ & _ & _ & G6 & G7).
  cbv zeta in *. rewrite (subgroup_alias A T CA CT T4) in G6. rewrite (equation_alias _ _ _ A T CA CT T4) in G6.
  assert (E : r4' = r4).
  { destruct H1 as (p & p2 & r & penc & c & c' & s & _ & _ & H3 & H4 & _). destruct G1 as (q & q2 & t & qenc & d & d' & u & _ & _ & G3 & G4 & _).
    rewrite H3 in G3. injection G3 as <-. rewrite H4 in G4. apply some_inj in G4. symmetry. exact G4. }
  subst r4'. exists r4, pk, pk'. tauto.
Qed.
Theorem alias_agree : forall pub pub' sig message A T R, bytes pub -> bytes pub' -> bytes sig -> (114 <= length sig)%nat ->
  ~ zero_input pub sig -> ~ zero_input pub' sig ->
  decodable pub -> decodable pub' -> decodable (firstn 57 sig) ->
  denotes pub A -> denotes pub' (eadd A T) -> on_curve T -> emul 4 T = ezero -> denotes (firstn 57 sig) R ->
  ed448_verify xof pub sig message = ed448_verify xof pub' sig message \/
  exists r4 pk j, (compared xof pub sig message r4 pk \/ compared xof pub' sig message r4 pk) /\ 0 < j < 2 ^ 28 /\ fval (cross r4 pk) = j * 2 ^ 420.
Proof.
  intros pub pub' sig message A T R B1 B1' B2 L NZ NZ' D1 D1' D2 N1 N1' CT T4 N2.
  destruct (alias pub pub' sig message A T R B1 B1' B2 L NZ NZ' D1 D1' D2 N1 N1' CT T4 N2) as (r4 & pk & pk' & C1 & C2 & E1 & E2 & V1 & V2).
  cbv zeta in *. rewrite V1, V2.
  destruct (low_zero (cross r4 pk)) eqn:Z1; destruct (low_zero (cross r4 pk')) eqn:Z2; try (left; reflexivity).
  - pose proof (proj1 (low_zero_iff _) Z1) as (j & Hj & E). destruct (Z.eq_dec j 0) as [->|J].
    + exfalso. assert (K : cross r4 pk = fzero) by (apply F_eq; rewrite E, fval_fzero; reflexivity).
      apply E1, E2 in K. rewrite K in Z2. rewrite low_zero_eq, low420_zero in Z2. discriminate.
    + right. exists r4, pk, j. split; [ left; exact C1 | ]. split; [ lia | exact E ].
  - pose proof (proj1 (low_zero_iff _) Z2) as (j & Hj & E). destruct (Z.eq_dec j 0) as [->|J].
    + exfalso. assert (K : cross r4 pk' = fzero) by (apply F_eq; rewrite E, fval_fzero; reflexivity).
      apply E2, E1 in K. rewrite K in Z1. rewrite low_zero_eq, low420_zero in Z1. discriminate.
    + right. exists r4, pk', j. split; [ right; exact C2 | ]. split; [ lia | exact E ].
Qed.

(* RFC 8032 verification, for keys in the group generated by B *)
Lemma subgroup_id : forall A, on_curve A -> emul q448 A = ezero -> subgroup_part A = A.
Proof. intros A C Z. unfold subgroup_part. rewrite emul_add, Z, emul_1 by exact C. apply eadd_0_l. Qed.
Lemma subgroup_not_zero : forall A, on_curve A -> emul q448 A = ezero -> eencode A <> repeat 0 57.
Proof.
  intros (x, y) C Z E. destruct (enc_eencode x y) as (E1 & _). rewrite E in E1.
  change (enc_y (repeat 0 57)) with (enc_y zero_public_key) in E1. rewrite enc_zero57 in E1.
  assert (Y : y = fzero) by (apply F_eq; rewrite fval_fzero; symmetry; exact E1). subst y.
  assert (P : (x, fzero) = ezero).
  { apply (emul_coprime (x, fzero) q448 4 C); [ | exact Z | apply y0_order4; exact C ].
    apply Zgcd_1_rel_prime. vm_compute. reflexivity. }
  apply (f_equal snd) in P. cbn [snd] in P. Transparent ezero. unfold ezero in P. cbn [snd] in P. apply fone_nz. symmetry. exact P.
Qed.
Opaque ezero.
Theorem rfc_accepts : forall pub sig message A, bytes sig -> rfc_valid xof pub sig message ->
  rfc_decodes pub A -> emul q448 A = ezero -> sig <> repeat 0 114 -> decodable pub -> decodable (firstn 57 sig) ->
  ed448_verify xof pub sig message = Some (Ok true).
Proof.
  intros pub sig message A B (A' & R & (CA' & EA') & (CR & ER) & L & _ & EQ) (CA & EA) Z NS D1 D2.
  assert (A' = A) by (apply eencode_inj; [ exact CA' | exact CA | rewrite <- EA', <- EA; reflexivity ]). subst A'.
  apply (verify_accepts xof XOF pub sig message A R); [ rewrite EA; apply eencode_bytes | exact B | rewrite L; apply Nat.le_refl | | exact D1 | exact D2 | | | ].
  - intros [K|K]; [ | exact (NS K) ]. rewrite EA in K. exact (subgroup_not_zero A CA Z K).
  - rewrite EA. apply denotes_eencode. exact CA.
  - rewrite ER. apply denotes_eencode. exact CR.
  - rewrite (subgroup_id A CA Z). rewrite <- EA. rewrite (firstn_all2 (skipn 57 sig)) by (rewrite skipn_length, L; apply Nat.le_refl). exact EQ.
Qed.
Theorem accepts_rfc : forall pub sig message A R, bytes sig -> length sig = 114%nat ->
  rfc_decodes pub A -> emul q448 A = ezero -> rfc_decodes (firstn 57 sig) R -> le_val (skipn 57 sig) < q448 ->
  ed448_verify xof pub sig message = Some (Ok true) ->
  rfc_valid xof pub sig message \/
  exists r4 pk j, compared xof pub sig message r4 pk /\ 0 < j < 2 ^ 28 /\ fval (cross r4 pk) = j * 2 ^ 420.
Proof.
  intros pub sig message A R B L (CA & EA) Z (CR & ER) S V.
  assert (BP : bytes pub) by (rewrite EA; apply eencode_bytes).
  destruct (verify_errors xof XOF pub sig message BP B) as (_ & _ & _ & _ & _ & (K & _) & _).
  destruct K as (NZ & _); [ exists true; exact V | ].
  destruct (verify_true pub sig message A R BP B NZ) as [E|E].
  - rewrite EA. apply denotes_eencode. exact CA.
  - rewrite ER. apply denotes_eencode. exact CR.
  - exact V.
  - left. exists A, R. split; [ split; assumption | ]. split; [ split; assumption | ]. split; [ exact L | ]. split; [ exact S | ].
    rewrite (subgroup_id A CA Z), <- EA in E. rewrite (firstn_all2 (skipn 57 sig)) in E by (rewrite skipn_length, L; apply Nat.le_refl). exact E.
  - right. exact E.
Qed.
End Hash.
