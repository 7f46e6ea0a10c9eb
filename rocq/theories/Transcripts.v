(* Honest and simulated transcripts; R of small order; unambiguous hash inputs; how many differences the
   comparison of field elements overlooks. *)
From Coq Require Import ZArith List Bool Lia Ring.
From Verif Require Import SpecField SpecBytes SpecScalar SpecCurve SpecDecode SpecEd448 SpecVerify SpecInternal SpecUniform SpecStructure SpecQueries.
From Verif Require Import Base Bytes ScalarModel ScalarProofs Errors ExtendedPoint Eddsa Goldilocks.
From Verif Require Samples3.
From Verif Require Import Arith Field Edwards Isogeny CombMul BaseTables PrimeQ Decode Ed448 Order Equation Facts Sound Kernel Uniform Count Witness Bind Interop Protocol Structure SmallKeys Queries Samples Samples2 Samples4.
Import ListNotations.
Open Scope Z_scope.

Local Opaque emul eencode eadd subgroup_part q448 ebase le_bytes rfc_dom ed448_verify decodable denotes ezero.

(* for the key A = x B the pairs (R, S) made from S and k alone are those made from r, k and x *)
Lemma emul_opp : forall n P, on_curve P -> eneg (emul n P) = emul (- n) P.
Proof.
  intros n P C. pose proof (emul_on n P C) as Cn. pose proof (emul_on (- n) P C) as Cm. pose proof (eneg_on _ Cn) as Cg.
  assert (E : eadd (emul n P) (emul (- n) P) = eadd (emul n P) (eneg (emul n P))).
  { rewrite <- (emul_add n (- n) P C), Z.add_opp_diag_r, eadd_neg by exact Cn. Transparent emul. reflexivity. }
  symmetry. exact (eadd_cancel_l _ _ _ Cn Cm Cg E).
Qed.
Local Opaque emul.
Theorem perfect_simulation : forall x k S R, 0 <= S < q448 ->
  (R = eadd (emul S ebase) (eneg (emul k (emul x ebase))) <-> exists r, 0 <= r < q448 /\ R = emul r ebase /\ S = (r + k * x) mod q448).
Proof.
  intros x k S R HS. assert (Q : 0 < q448) by reflexivity.
  rewrite <- (emul_mul k x ebase ebase_on), (emul_opp (k * x) ebase ebase_on), <- (emul_add S (- (k * x)) ebase ebase_on). split.
  - intros ->. exists ((S + - (k * x)) mod q448). split; [ apply Z.mod_pos_bound; exact Q | ]. split.
    + apply base_inj. rewrite Z.mod_mod by lia. reflexivity.
    + rewrite Zplus_mod_idemp_l. replace (S + - (k * x) + k * x) with S by ring. symmetry. apply Z.mod_small. exact HS.
  - intros (r & Hr & -> & ->). apply base_inj. rewrite Zplus_mod_idemp_l. f_equal. ring.
Qed.

(* R of small order *)
Theorem small_R : forall xof, is_xof xof -> forall key pub message Renc, length key = 57%nat -> bytes key -> ed448_derive_public xof key = Some pub -> decodable pub ->
  In Renc small_encodings ->
  let k := rfc_challenge xof Renc pub message in
  let sig := Renc ++ le_bytes 57 ((k * key_scalar xof key) mod q448) in
  sig <> repeat 0 114 -> ed448_verify xof pub sig message = Some (Ok true).
Proof.
  intros xof X key pub message Renc L B E D I k sig NZ. unfold sig in *. clear sig.
  assert (EP : pub = eencode (emul (key_scalar xof key) ebase)).
  { rewrite (key_public xof X key L B) in E. apply some_inj in E. symmetry. exact E. }
  set (s := key_scalar xof key) in *. clearbody s.
  assert (CA : on_curve (emul s ebase)) by (apply emul_on; exact ebase_on).
  assert (QA : emul q448 (emul s ebase) = ezero) by (rewrite <- (emul_mul q448 s ebase ebase_on), Z.mul_comm, (emul_mul s q448 ebase ebase_on), base_q; apply emul_ezero).
  destruct (small_all Renc I) as (BR & DR & R & NR & ZR). pose proof (proj1 NR) as CR.
  assert (LR : length Renc = 57%nat).
  { apply small_list in I. destruct I as (y & b & _ & _ & ->). rewrite app_length, le_bytes_length. reflexivity. }
  set (S := (k * s) mod q448) in *. assert (HS : 0 <= S < q448) by (apply Z.mod_pos_bound; reflexivity).
  assert (F1 : firstn 57 (Renc ++ le_bytes 57 S) = Renc).
  { rewrite firstn_app, LR, Nat.sub_diag, firstn_O, app_nil_r. apply firstn_all2. rewrite LR. apply Nat.le_refl. }
  assert (F2 : skipn 57 (Renc ++ le_bytes 57 S) = le_bytes 57 S).
  { rewrite skipn_app, LR, Nat.sub_diag, skipn_O, skipn_all2 by (rewrite LR; apply Nat.le_refl). reflexivity. }
  assert (F3 : le_val (firstn 57 (le_bytes 57 S)) = S).
  { rewrite firstn_all2 by (rewrite le_bytes_length; apply Nat.le_refl). rewrite le_val_le_bytes. apply Z.mod_small. split; [ apply HS | ].
    apply (Z.lt_trans _ q448); [ apply HS | reflexivity ]. }
  assert (NP : denotes pub (emul s ebase)) by (rewrite EP; apply denotes_eencode; exact CA).
  apply (verify_accepts xof X pub (Renc ++ le_bytes 57 S) message (emul s ebase) R); rewrite ?F1, ?F2, ?F3; try assumption.
  - rewrite EP. apply eencode_bytes.
  - apply bytes_app. split; [ exact BR | apply le_bytes_bytes ].
  - rewrite app_length, LR, le_bytes_length. apply Nat.le_refl.
  - intros [ Z0 | Z0 ]; [ rewrite EP in Z0; exact (subgroup_not_zero _ CA QA Z0) | exact (NZ Z0) ].
  - rewrite (subgroup_id _ CA QA), <- EP. fold k.
    apply (equation_linear (emul s ebase) R s 0 S k CA CR); [ exact (subgroup_id _ CA QA) | rewrite (four_subgroup R CR ZR); symmetry; apply emul_0 | ].
    unfold S. rewrite Z.mod_mod by exact q448_nz. rewrite Z.add_0_l. reflexivity.
Qed.

(* such a signature gives the secret scalar away: S = k s *)
Theorem small_R_reveals : forall xof, is_xof xof -> forall key pub sig message R, length key = 57%nat -> bytes key -> ed448_derive_public xof key = Some pub ->
  bytes sig -> denotes (firstn 57 sig) R -> emul 4 R = ezero -> ed448_verify xof pub sig message = Some (Ok true) ->
  let k := rfc_challenge xof (firstn 57 sig) pub message in
  le_val (firstn 57 (skipn 57 sig)) mod q448 = (k * key_scalar xof key) mod q448 \/ false_positive xof pub sig message.
Proof.
  intros xof X key pub sig message R L B E BS NR ZR V k.
  assert (EP : pub = eencode (emul (key_scalar xof key) ebase)).
  { rewrite (key_public xof X key L B) in E. apply some_inj in E. symmetry. exact E. }
  set (s := key_scalar xof key) in *. clearbody s. pose proof (proj1 NR) as CR.
  assert (CA : on_curve (emul s ebase)) by (apply emul_on; exact ebase_on).
  assert (QA : emul q448 (emul s ebase) = ezero) by (rewrite <- (emul_mul q448 s ebase ebase_on), Z.mul_comm, (emul_mul s q448 ebase ebase_on), base_q; apply emul_ezero).
  assert (NP : denotes pub (emul s ebase)) by (rewrite EP; apply denotes_eencode; exact CA).
  assert (BP : bytes pub) by (rewrite EP; apply eencode_bytes).
  assert (NZ : ~ zero_input pub sig).
  { intro Z0. apply zero_input_dec in Z0. Transparent ed448_verify. unfold ed448_verify in V. Opaque ed448_verify. rewrite Z0 in V. discriminate V. }
  destruct (verify_true xof X pub sig message (emul s ebase) R BP BS NZ NP NR V) as [ Q | F ]; [ left | right; exact F ].
  rewrite (subgroup_id _ CA QA), <- EP in Q. fold k in Q.
  apply (equation_linear (emul s ebase) R s 0 _ k CA CR) in Q; [ rewrite Z.add_0_l in Q; exact Q | exact (subgroup_id _ CA QA) | ].
  rewrite (four_subgroup R CR ZR). symmetry. apply emul_0.
Qed.

(* hash inputs *)
Lemma app_len_inj : forall (A : Type) (a b c d : list A), length a = length c -> a ++ b = c ++ d -> a = c /\ b = d.
Proof.
  intros A a. induction a as [ | x a IH ]; intros b [ | y c ] d L E; try discriminate L.
  - split; [ reflexivity | exact E ].
  - cbn in L, E. injection L as L. injection E as E1 E2. destruct (IH b c d L E2) as (-> & ->). subst. split; reflexivity.
Qed.
Lemma single_inj : forall (A : Type) (a b : A), [a] = [b] -> a = b.
Proof. intros A a b E. injection E as E. exact E. Qed.
Theorem verify_input_inj : forall A A' sig sig' m m', on_curve A -> on_curve A' -> (57 <= length sig)%nat -> (57 <= length sig')%nat ->
  verify_inputs A sig m = verify_inputs A' sig' m' -> subgroup_part A = subgroup_part A' /\ firstn 57 sig = firstn 57 sig' /\ m = m'.
Proof.
  intros A A' sig sig' m m' CA CA' L L' E. unfold verify_inputs in E. apply single_inj in E. apply app_inv_head in E.
  apply app_len_inj in E; [ | rewrite !firstn_length, !Nat.min_l by assumption; reflexivity ]. destruct E as (E1 & E).
  apply app_len_inj in E; [ | rewrite !eencode_len; reflexivity ]. destruct E as (E2 & E3).
  apply eencode_inj in E2; [ | exact (emul_on (q448 + 1) A CA) | exact (emul_on (q448 + 1) A' CA') ]. split; [ exact E2 | ]. split; assumption.
Qed.
Lemma prefix_len : forall H, is_xof H -> forall key, length (sign_prefix H key) = 57%nat.
Proof.
  intros H X key. unfold sign_prefix. destruct (enc_sign key); [ apply le_bytes_length | ]. rewrite skipn_length, (xof_len H X). reflexivity.
Qed.
Theorem sign_inputs_distinct : forall H, is_xof H -> forall key message, length key = 57%nat -> NoDup (sign_inputs H key message).
Proof.
  intros H X key message L. unfold sign_inputs, derive_inputs. cbv zeta.
  set (a := rfc_dom ++ sign_prefix H key ++ message). set (b := rfc_dom ++ eencode _ ++ eencode _ ++ message).
  assert (LD : length rfc_dom = 10%nat) by reflexivity.
  assert (La : length a = (67 + length message)%nat) by (unfold a; rewrite !app_length, (prefix_len H X), LD; lia).
  assert (Lb : length b = (124 + length message)%nat) by (unfold b; rewrite !app_length, !eencode_len, LD; lia).
  clearbody a b.
  assert (N : NoDup [a; b]).
  { constructor; [ | constructor; [ intros [] | constructor ] ]. intros [ E | [] ]. rewrite E in Lb. lia. }
  destruct (enc_sign key); [ exact N | ]. cbn [app]. constructor; [ | exact N ]. intros [ E | [ E | [] ] ]; [ rewrite E, L in La | rewrite E, L in Lb ]; lia.
Qed.
Theorem sign_inputs_inj : forall H, is_xof H -> forall key key' m m', sign_inputs H key m = sign_inputs H key' m' ->
  m = m' /\ sign_prefix H key = sign_prefix H key' /\ emul (key_scalar H key) ebase = emul (key_scalar H key') ebase.
Proof.
  intros H X key key' m m' E. assert (T : forall l l' (a b a' b' : list Z), l ++ [a; b] = l' ++ [a'; b'] -> a = a' /\ b = b').
  { intros l l' a b a' b' Q. apply (f_equal (@rev (list Z))) in Q. rewrite !rev_app_distr in Q. cbn in Q. injection Q as Q1 Q2 _. split; assumption. }
  apply T in E. destruct E as (E1 & E2). apply app_inv_head in E1. apply app_len_inj in E1; [ | rewrite !(prefix_len H X); reflexivity ]. destruct E1 as (E1 & ->).
  apply app_inv_head in E2. apply app_len_inj in E2; [ | rewrite !eencode_len; reflexivity ]. destruct E2 as (_ & E2).
  apply app_len_inj in E2; [ | rewrite !eencode_len; reflexivity ]. destruct E2 as (E2 & _). apply eencode_inj in E2; [ | apply on_B | apply on_B ].
  split; [ reflexivity | ]. split; assumption.
Qed.

(* the differences that the comparison takes for zero *)
Theorem overlooked : tally (fun z => (0 <? z) && (z mod 2 ^ 420 =? 0)) (below p448) = 2 ^ 28 - 1.
Proof.
  rewrite tally_below. set (g := fun z => if (0 <? z) && (z mod 2 ^ 420 =? 0) then 1 else 0).
  assert (T : zsum g (2 ^ 420 * 2 ^ 28) = 2 ^ 28 - 1).
  { rewrite zsum_mul by (apply Z.pow_nonneg; lia). assert (P : 0 < 2 ^ 420) by reflexivity. set (n := 2 ^ 420) in *. clearbody n.
    transitivity (zsum (fun lo => if lo =? 0 then 2 ^ 28 - 1 else 0) n); [ | apply zsum_point; lia ]. apply zsum_ext. intros lo Hlo.
    assert (M : forall hi, (lo + n * hi) mod n = lo) by (intro hi; rewrite (Z.mul_comm n hi), Z.mod_add by lia; apply Z.mod_small; exact Hlo).
    destruct (Z.eqb_spec lo 0) as [ -> | NE ].
    - replace (2 ^ 28) with (1 + (2 ^ 28 - 1)) at 1 by reflexivity. rewrite zsum_app by lia.
      rewrite (zsum_ext _ (fun _ => 0) 1); [ rewrite zsum_const by lia | ].
      + rewrite (zsum_ext _ (fun _ => 1)); [ rewrite zsum_const by lia; reflexivity | ]. intros i Hi. unfold g. rewrite M, Z.eqb_refl, andb_true_r.
        assert (L : 0 <? 0 + n * (1 + i) = true) by (apply Z.ltb_lt; nia). rewrite L. reflexivity.
      + intros i Hi. assert (i = 0) by lia. subst i. unfold g. rewrite Z.mul_0_r. reflexivity.
    - rewrite (zsum_ext _ (fun _ => 0)); [ rewrite zsum_const by (apply Z.pow_nonneg; lia); apply Z.mul_0_r | ]. intros hi _. unfold g. rewrite M.
      apply Z.eqb_neq in NE. rewrite NE, andb_false_r. reflexivity. }
  change (2 ^ 420 * 2 ^ 28) with (p448 + (2 ^ 224 + 1)) in T. rewrite zsum_app in T by (vm_compute; discriminate).
  rewrite (zsum_ext (fun i => g (p448 + i)) (fun _ => 0) (2 ^ 224 + 1)) in T; [ rewrite zsum_const in T by (vm_compute; discriminate); rewrite Z.mul_0_r, Z.add_0_r in T; exact T | ].
  intros i Hi. unfold g. assert (M : (p448 + i) mod 2 ^ 420 = 2 ^ 420 - 2 ^ 224 - 1 + i).
  { replace (p448 + i) with (2 ^ 420 - 2 ^ 224 - 1 + i + (2 ^ 28 - 1) * 2 ^ 420) by (unfold p448; ring). rewrite Z.mod_add by (apply Z.pow_nonzero; lia).
    apply Z.mod_small. lia. }
  rewrite M. assert (N : 2 ^ 420 - 2 ^ 224 - 1 + i <> 0) by lia. apply Z.eqb_neq in N. rewrite N, andb_false_r. reflexivity.
Qed.

(* cases *)
Lemma small_R_case : length key4 = 57%nat /\ bytes key4 /\ ed448_derive_public xof1 key4 = Some (eencode (emul 4 ebase)) /\ decodable (eencode (emul 4 ebase)) /\
  In (repeat 0 56 ++ [128]) small_encodings /\ (forall s, (repeat 0 56 ++ [128]) ++ s <> repeat 0 114) /\ exists R, denotes (repeat 0 56 ++ [128]) R /\ emul 4 R = ezero.
Proof.
  destruct public_case as (L & B & _ & E). destruct small_case as (I & NZ & _). split; [ exact L | ]. split; [ exact B | ]. split; [ exact E | ].
  split; [ exact four_decodable | ]. split; [ exact I | ]. split; [ intros s Z0; apply NZ; apply (f_equal (firstn 57)) in Z0; exact Z0 | ]. destruct (small_all _ I) as (_ & _ & R & NR & ZR). exists R. split; assumption.
Qed.
Lemma perfect_case : 0 <= 2 < q448 /\ ebase = eadd (emul 2 ebase) (eneg (emul 1 (emul 1 ebase))).
Proof.
  split; [ split; [ discriminate | reflexivity ] | ]. rewrite (emul_1 ebase). symmetry. exact Samples3.simulation_R.
Qed.
Lemma inputs_case : is_xof xof1 /\ length seed = 57%nat /\ on_curve ebase /\ on_curve (emul 4 ebase) /\ length sig2 = 114%nat.
Proof.
  split; [ exact xof1_xof | ]. split; [ exact (proj1 seed_ok) | ]. split; [ exact ebase_on | ]. split; [ apply emul_on; exact ebase_on | exact (proj1 (proj2 sig2_ok)) ].
Qed.
