(* Concrete cases for the theorems of Protocol.v. *)
From Coq Require Import ZArith List Bool Lia Ring.
From Verif Require Import SpecField SpecBytes SpecScalar SpecCurve SpecDecode SpecEd448 SpecVerify SpecInternal SpecShake SpecUniform SpecApi SpecProtocol.
From Verif Require Import Base Bytes Errors Eddsa Goldilocks Lib.
From Verif Require Import Field Edwards Isogeny CombMul FastF BaseTables Decode Ed448 Equation Facts Witness Sound Shake Torsion Kernel Alias Api Samples Samples2 Protocol.
Import ListNotations.
Open Scope Z_scope.

(* 4 B shifted by the point of order 2 *)
Lemma four2_tests : decoder_tests (eadd (emul 4 ebase) point2).
Proof.
  pose proof (zall_ok 2 (0, 0)) as K. change (2 ^ Z.of_nat 2) with 4 in K. rewrite <- K by (apply Nat.ltb_lt; vm_compute; reflexivity).
  fold z4. destruct z4 as (x, y) eqn:E. unfold zF. rewrite shift2. unfold decoder_tests, fst, snd. rewrite <- !mkF_opp, fval_mkF, denominator_mkF, low_zero_mkF.
  assert (Ex : x = fst z4) by (rewrite E; reflexivity). assert (Ey : y = snd z4) by (rewrite E; reflexivity). subst x y. clear. split; vm_compute; reflexivity.
Qed.
Lemma four_y : snd (emul 4 ebase) <> fzero.
Proof.
  pose proof (zall_ok 2 (0, 0)) as K. change (2 ^ Z.of_nat 2) with 4 in K. rewrite <- K by (apply Nat.ltb_lt; vm_compute; reflexivity).
  fold z4. destruct z4 as (x, y) eqn:E. unfold zF, snd. assert (Ey : y = snd z4) by (rewrite E; reflexivity). subst y. clear.
  intro Z0. apply (f_equal fval) in Z0. rewrite fval_mkF in Z0. revert Z0. change (fval fzero) with 0. apply Z.eqb_neq. vm_compute. reflexivity.
Qed.
Lemma shift_not_zero : forall P, snd P <> fzero -> eencode (eadd P point2) <> repeat 0 57.
Proof.
  intros (x, y) N. rewrite shift2. destruct (enc_eencode (fopp x) (fopp y)) as (E1 & _). unfold snd in N.
  intro E. rewrite E in E1. change (enc_y (repeat 0 57)) with 0 in E1. apply N.
  assert (K : fopp y = fzero) by (apply fval_zero; symmetry; exact E1).
  transitivity (fopp (fopp y)); [ ring | rewrite K; ring ].
Qed.
Lemma shift_other : forall P, on_curve P -> eencode (eadd P point2) <> eencode P.
Proof.
  intros P C E. apply (eencode_inj _ _ (eadd_on _ _ C point2_on) C) in E.
  assert (K : eadd P ezero = eadd P point2) by (rewrite eadd_0_r; symmetry; exact E).
  Transparent ezero.
  apply eadd_cancel_l in K; [ | exact C | exact ezero_on | exact point2_on ]. unfold ezero, point2 in K. pose proof (f_equal snd K) as S. unfold snd in S.
  change fone with (mkF 1) in S. rewrite <- mkF_opp in S. apply mkF_eq in S. vm_compute in S. discriminate S.
Qed.
Opaque ezero.
Local Opaque emul eencode eadd point2 subgroup_part ed448_verify q448 decodable denotes ebase le_bytes key4.
Lemma four_on : on_curve (emul 4 ebase).
Proof. apply emul_on. exact ebase_on. Qed.
Lemma four2_on : on_curve (eadd (emul 4 ebase) point2).
Proof. apply eadd_on; [ exact four_on | exact point2_on ]. Qed.
Lemma four2_decodable : decodable (eencode (eadd (emul 4 ebase) point2)).
Proof. apply decodable_eencode; [ exact four2_on | exact four2_tests ]. Qed.
Lemma four_q : emul q448 (emul 4 ebase) = ezero.
Proof. rewrite <- emul_mul by exact ebase_on. rewrite Z.mul_comm, emul_mul, base_q by exact ebase_on. apply emul_ezero. Qed.
Lemma four_sub : subgroup_part (emul 4 ebase) = emul 4 ebase.
Proof. exact (subgroup_id _ four_on four_q). Qed.

(* C67: the two signatures of Samples2.shared_case are accepted *)
Lemma shared_accepted : exists pub sig sig', pub = eencode (emul 4 ebase) /\ bytes pub /\ bytes sig /\ bytes sig' /\
  denotes pub (emul 4 ebase) /\ rfc_decodes pub (emul 4 ebase) /\ denotes (firstn 57 sig) ebase /\ firstn 57 sig = firstn 57 sig' /\
  ed448_derive_public xof2 key4 = Some pub /\ subgroup_part (emul 4 ebase) = emul 4 ebase /\
  ed448_verify xof2 pub sig [1] = Some (Ok true) /\ ed448_verify xof2 pub sig' [2] = Some (Ok true) /\
  rfc_challenge xof2 (firstn 57 sig) (eencode (subgroup_part (emul 4 ebase))) [1] mod q448 <>
  rfc_challenge xof2 (firstn 57 sig) (eencode (subgroup_part (emul 4 ebase))) [2] mod q448.
Proof.
  destruct shared_case as (X & sig & sig' & E0 & E1 & E2 & EF & C1 & C2). destruct key4_ok as (L & B & S & V).
  destruct (sign_canonical xof2 X key4 [1] sig L B E1) as (L1 & B1 & _). destruct (sign_canonical xof2 X key4 [2] sig' L B E2) as (L2 & B2 & _).
  assert (FR : firstn 57 sig = eencode ebase).
  { pose proof (sign_ok xof2 X key4 [1] L B) as E3. rewrite S in E3. rewrite E1 in E3. apply some_inj in E3. subst sig.
    unfold rfc_sign_with. cbv zeta. rewrite (proj1 (sig_parts _ _)). rewrite xof2_val. rewrite !app_length, le_bytes_length. cbn [length rfc_dom].
    change (Nat.ltb (10 + (57 + 1)) 100) with true. cbv iota. rewrite emul_1. reflexivity. }
  exists (eencode (emul 4 ebase)), sig, sig'. split; [ reflexivity | ]. split; [ apply eencode_bytes | ]. split; [ exact B1 | ]. split; [ exact B2 | ].
  split; [ apply denotes_eencode; exact four_on | ]. split; [ split; [ exact four_on | reflexivity ] | ].
  split; [ rewrite FR; exact base_denotes | ]. split; [ exact EF | ]. split; [ exact E0 | ]. split; [ exact four_sub | ].
  assert (D : decodable (firstn 57 sig)) by (rewrite FR; exact base_decodable). pose proof D as D'. rewrite EF in D'.
  split; [ exact (proj2 (honest_verifies xof2 X key4 [1] _ _ L B E0 E1) (conj four_decodable D)) | ].
  split; [ exact (proj2 (honest_verifies xof2 X key4 [2] _ _ L B E0 E2) (conj four_decodable D')) | ].
  rewrite four_sub, C1, C2. discriminate.
Qed.

(* C68: S = 2, k = 1 for the public key B, so that R = B *)
Lemma two_minus_one : forall P, on_curve P -> eadd (emul 2 P) (eneg (emul 1 P)) = P.
Proof.
  intros P C. pose proof (eneg_on P C) as N. rewrite emul_1, emul_2 by exact C. rewrite eadd_assoc by assumption. rewrite eadd_neg by exact C. apply eadd_0_r.
Qed.
Lemma simulation_R : eadd (emul 2 ebase) (eneg (emul 1 ebase)) = ebase.
Proof. exact (two_minus_one ebase ebase_on). Qed.
Lemma simulation_case : bytes (eencode ebase) /\ eencode ebase <> repeat 0 57 /\ decodable (eencode ebase) /\ denotes (eencode ebase) ebase /\
  0 <= 2 < 256 ^ 57 /\ 0 <= 1 < 256 ^ 114 /\ decodable (eencode (eadd (emul 2 ebase) (eneg (emul 1 ebase)))) /\
  eencode (eadd (emul 2 ebase) (eneg (emul 1 ebase))) ++ le_bytes 57 2 <> repeat 0 114.
Proof.
  split; [ apply eencode_bytes | ]. split; [ exact base_not_zero | ]. split; [ exact base_decodable | ]. split; [ exact base_denotes | ].
  split; [ split; [ discriminate | reflexivity ] | ]. split; [ split; [ discriminate | reflexivity ] | ]. rewrite simulation_R.
  split; [ exact base_decodable | exact sig2_nz ].
Qed.

(* C70: the equation with the factor 4 but not without *)
Lemma torsion_case : on_curve (eadd ebase point2) /\ on_curve ebase /\ rfc_equation ((1 + 5) mod q448) (eadd ebase point2) 5 ebase /\
  ~ plain_equation ((1 + 5) mod q448) (eadd ebase point2) 5 ebase.
Proof.
  split; [ apply eadd_on; [ exact ebase_on | exact point2_on ] | ]. split; [ exact ebase_on | ]. split; [ exact (base2_q 5) | exact (not_plain 5) ].
Qed.

(* C71: key4 and the point of order 2 *)
Lemma alias_key_case : forall message, exists pub sig, length key4 = 57%nat /\ bytes key4 /\ ed448_derive_public xof1 key4 = Some pub /\
  ed448_sign xof1 key4 message = Some sig /\ decodable pub /\ decodable (firstn 57 sig) /\ rfc_decodes pub (emul 4 ebase) /\ on_curve point2 /\
  emul 4 point2 = ezero /\ decodable (eencode (eadd (emul 4 ebase) point2)) /\ eencode (eadd (emul 4 ebase) point2) <> repeat 0 57 /\
  eencode (eadd (emul 4 ebase) point2) <> pub.
Proof.
  intro message. destruct (honest4 message) as (pub & sig & E1 & E2 & D1 & D2 & _). exists pub, sig. destruct key4_ok as (L & B & _).
  rewrite (key4_public xof1 xof1_xof) in E1. apply some_inj in E1. subst pub. split; [ exact L | ]. split; [ exact B | ].
  split; [ exact (key4_public xof1 xof1_xof) | ]. split; [ exact E2 | ]. split; [ exact D1 | ]. split; [ exact D2 | ].
  split; [ split; [ exact four_on | reflexivity ] | ]. split; [ exact point2_on | ]. split; [ exact point2_4 | ]. split; [ exact four2_decodable | ].
  split; [ exact (shift_not_zero _ four_y) | exact (shift_other _ four_on) ].
Qed.
