(* Answers of the hash for which one signature is accepted for two messages, or for two keys. *)
From Coq Require Import ZArith List Bool Lia.
From Verif Require Import Base SpecField SpecBytes SpecScalar SpecCurve SpecDecode SpecEd448 SpecVerify SpecInternal SpecUniform SpecProtocol SpecQueries SpecForger SpecBinding.
From Verif Require Import Bytes Errors Eddsa Goldilocks.
From Verif Require Samples Samples3.
From Verif Require Import Field Edwards Isogeny CombMul BaseTables PrimeQ Decode Ed448 Order Equation Facts Sound Kernel Uniform Count Bind Alias Api Interop Protocol Structure SmallKeys Queries Unbias Forking Forger Binding.
From Verif Require ForgerCase Transcripts.
Import ListNotations.
Open Scope Z_scope.
Local Opaque eencode emul eadd ed448_verify q448 le_bytes le_val decodable strings subgroup_part.

(* R = B and S = 5 *)
Definition five : list Z := eencode ebase ++ le_bytes 57 5.
Definition ans (k : Z) : list Z := le_bytes 114 k.
Definition two_messages (_ : list (list Z)) : claim := Claim (eencode ebase) ebase [1] (eencode ebase) ebase [2] five.
Definition two_keys (_ : list (list Z)) : claim := Claim (eencode ebase) ebase [1] (eencode (emul 4 ebase)) (emul 4 ebase) [1] five.
Definition none : strategy := fun _ => [].

Lemma ans_in : forall k, In (ans k) (strings 114).
Proof. intro k. apply (proj2 (in_strings 114 _)). split; [ apply le_bytes_length | apply le_bytes_bytes ]. Qed.
Lemma ans_val : forall k, 0 <= k < 256 -> le_val (ans k) = k.
Proof.
  intros k R. unfold ans. rewrite le_val_le_bytes. apply Z.mod_small. split; [ lia | ]. apply (Z.lt_le_trans _ 256); [ lia | ]. apply Z.leb_le. vm_compute. reflexivity.
Qed.
Lemma pair_in : forall a b, In [ans a; ans b] (vectors (strings 114) 2).
Proof. intros a b. apply (vectors_join (strings 114) 1 1 [ans a] [ans b]); cbn [vectors]; apply in_flat_map; [ exists (ans a) | exists (ans b) ]; (split; [ apply ans_in | left; reflexivity ]). Qed.
Lemma accepted_at : forall T, is_xof (table_xof T) -> forall x k m, let A := emul x ebase in subgroup_part A = A -> decodable (eencode A) -> eencode A <> repeat 0 57 ->
  0 <= k < 256 -> 1 + k * x = 5 -> recall (forged_input A (five, m)) T = Some (ans k) ->
  ed448_verify (table_xof T) (eencode A) five m = Some (Ok true) /\ ~ false_positive (table_xof T) (eencode A) five m.
Proof.
  intros T X x k m A SA DA NA RK E5 RC. assert (CA : on_curve A) by (apply emul_on; exact ebase_on).
  destruct (sig_parts ebase 5) as (F1 & F2 & F3 & F4). fold five in F1, F2, F3, F4.
  assert (EK : rfc_challenge (table_xof T) (eencode ebase) (eencode A) m = k).
  { unfold rfc_challenge. transitivity (le_val (ans k)); [ | apply ans_val; exact RK ]. apply (f_equal le_val). apply table_at; [ | apply le_bytes_length ]. rewrite <- RC. unfold forged_input. cbn [fst snd]. rewrite F1, SA. reflexivity. }
  assert (L57 : firstn 57 (le_bytes 57 5) = le_bytes 57 5) by (apply firstn_all2; rewrite le_bytes_length; apply Nat.le_refl).
  assert (E57 : le_val (le_bytes 57 5) = 5) by (rewrite le_val_le_bytes; apply Z.eqb_eq; vm_compute; reflexivity).
  assert (NS : five <> repeat 0 114).
  { intro Z0. apply (f_equal (firstn 57)) in Z0. rewrite F1 in Z0. exact (Samples.base_not_zero Z0). }
  assert (Q : rfc_equation 5 ebase k A).
  { unfold rfc_equation, A. rewrite <- emul_mul, <- emul_add by exact ebase_on. f_equal. rewrite <- E5. ring. }
  assert (NZ : ~ zero_input (eencode A) five) by (intros [ K | K ]; [ exact (NA K) | exact (NS K) ]).
  assert (DR : decodable (firstn 57 five)) by (rewrite F1; exact Samples.base_decodable).
  assert (NR : denotes (firstn 57 five) ebase) by (rewrite F1; apply denotes_eencode; exact ebase_on).
  assert (Q' : rfc_equation (le_val (firstn 57 (skipn 57 five))) ebase (rfc_challenge (table_xof T) (firstn 57 five) (eencode (subgroup_part A)) m) A).
  { rewrite F1, F2, L57, E57, SA, EK. exact Q. }
  assert (L4 : (114 <= length five)%nat) by (rewrite F4; apply Nat.le_refl).
  split.
  - exact (verify_accepts (table_xof T) X (eencode A) five m A ebase (eencode_bytes A) F3 L4 NZ DA DR (denotes_eencode A CA) NR Q').
  - exact (equation_exact (table_xof T) X (eencode A) five m A ebase (eencode_bytes A) F3 L4 NZ DA DR (denotes_eencode A CA) NR Q').
Qed.
Lemma four_nonzero : eencode (emul 4 ebase) <> repeat 0 57.
Proof. apply subgroup_not_zero; [ exact Samples3.four_on | exact Samples3.four_q ]. Qed.
Lemma part_nonzero : subgroup_part ebase <> ezero.
Proof. rewrite ForgerCase.base_subgroup. exact ebase_nz. Qed.
Lemma base_four : ebase <> emul 4 ebase.
Proof.
  intro K. assert (E : emul 3 ebase = ezero).
  { apply (eadd_cancel_l ebase); [ exact ebase_on | apply emul_on; exact ebase_on | exact ezero_on | ].
    pose proof (emul_add 1 3 ebase ebase_on) as A. rewrite (emul_1 ebase) in A. change (1 + 3) with 4 in A. rewrite <- K in A. rewrite <- A. symmetry. apply eadd_0_r. }
  apply base_order in E. apply Z.divide_pos_le in E; [ | reflexivity ]. apply Z.leb_le in E. revert E. vm_compute. discriminate.
Qed.
Lemma run_two : forall finish a b, input1 (finish []) <> input2 (finish []) ->
  claim_run 0 none finish [a; b] = [(input1 (finish []), a); (input2 (finish []), b)].
Proof.
  intros finish a b NE. unfold claim_run, claim_questions. cbn [ask recall app map snd length Nat.ltb Nat.leb Nat.eqb firstn]. generalize dependent (input2 (finish [])). generalize (input1 (finish [])). intros x y NE.
  replace (same_string y x) with false; [ reflexivity | ]. symmetry. apply Bool.not_true_iff_false. intro K. apply NE. symmetry. apply same_string_eq. exact K.
Qed.
Lemma recall_second : forall (x y : list Z) (a b : list Z), x <> y -> recall y [(x, a); (y, b)] = Some b.
Proof.
  intros x y a b NE. cbn [recall]. rewrite ForgerCase.same_refl. destruct (same_string y x) eqn:K; [ | reflexivity ]. apply same_string_eq in K. destruct NE. symmetry. exact K.
Qed.
Lemma case_win : forall finish x k m m', finish = two_messages /\ x = 1 /\ k = 4 /\ m = [1] /\ m' = [2] \/ finish = two_keys /\ x = 4 /\ k = 1 /\ m = [1] /\ m' = [1] ->
  double_win 0 none finish [ans 4; ans k].
Proof.
  intros finish x k m m' HC. pose proof (Binding.run_xof 0 none finish _ (pair_in 4 k)) as X.
  assert (FS : finish [] = Claim (eencode (emul 1 ebase)) (emul 1 ebase) m (eencode (emul x ebase)) (emul x ebase) m' five /\ subgroup_part (emul x ebase) = emul x ebase /\ decodable (eencode (emul x ebase)) /\
    eencode (emul x ebase) <> repeat 0 57 /\ 0 <= k < 256 /\ 1 + k * x = 5 /\ ~ (emul 1 ebase = emul x ebase /\ m = m')).
  { destruct HC as [ (-> & -> & -> & -> & ->) | (-> & -> & -> & -> & ->) ]; rewrite ?emul_1.
    - repeat apply conj; [ reflexivity | exact ForgerCase.base_subgroup | exact Samples.base_decodable | exact Samples.base_not_zero | lia | lia | reflexivity | ]. intros (_ & K). discriminate K.
    - repeat apply conj; [ reflexivity | exact Samples3.four_sub | exact Samples.four_decodable | exact four_nonzero | lia | lia | reflexivity | ]. intros (K & _). exact (base_four K). }
  destruct FS as (FS & SA & DA & NA & RK & E5 & ND). clear HC.
  assert (SB : subgroup_part (emul 1 ebase) = emul 1 ebase) by (rewrite emul_1; exact ForgerCase.base_subgroup).
  assert (NI : input1 (finish []) <> input2 (finish [])).
  { rewrite FS. unfold input1, input2, forged_input. cbn [point1 point2 message1 message2 signature fst snd]. rewrite SA, SB. intro E. apply app_inv_head in E. apply app_inv_head in E.
    apply Transcripts.app_len_inj in E as (E1 & E2); [ | rewrite !eencode_len; reflexivity ]. apply ND. split; [ | exact E2 ]. apply eencode_inj in E1; [ exact E1 | apply emul_on; exact ebase_on | apply emul_on; exact ebase_on ]. }
  unfold double_win, claimed. rewrite (run_two finish (ans 4) (ans k) NI) in *. cbv zeta. rewrite !firstn_O.
  set (T := [(input1 (finish []), ans 4); (input2 (finish []), ans k)]) in *.
  assert (R1 : recall (input1 (finish [])) T = Some (ans 4)) by (unfold T; cbn [recall]; rewrite ForgerCase.same_refl; reflexivity).
  assert (R2 : recall (input2 (finish [])) T = Some (ans k)).
  { exact (recall_second _ _ _ _ NI). }
  clearbody T. rewrite FS in *. unfold input1, input2 in R1, R2. cbn [key1 key2 point1 point2 message1 message2 signature] in *.
  destruct (sig_parts ebase 5) as (F1 & _ & F3 & _). fold five in F1, F3.
  destruct (accepted_at T X 1 4 m SB) as (V1 & W1); [ rewrite emul_1; exact Samples.base_decodable | rewrite emul_1; exact Samples.base_not_zero | lia | reflexivity | exact R1 | ].
  destruct (accepted_at T X x k m' SA DA NA RK E5 R2) as (V2 & W2).
  repeat apply conj; try assumption; try apply eencode_bytes; try (apply denotes_eencode; apply emul_on; exact ebase_on).
  - exists ebase. rewrite F1. apply denotes_eencode. exact ebase_on.
  - intros (K & _). rewrite emul_1 in K. exact (part_nonzero K).
  - rewrite SA, SB. exact ND.
Qed.
Lemma binding_case : double_win 0 none two_messages [ans 4; ans 4] /\ double_win 0 none two_keys [ans 4; ans 1] /\
  In [ans 4; ans 4] (vectors (strings 114) 2) /\ In [ans 4; ans 1] (vectors (strings 114) 2).
Proof.
  pose proof (case_win two_messages 1 4 [1] [2] (or_introl (conj eq_refl (conj eq_refl (conj eq_refl (conj eq_refl eq_refl)))))) as A.
  pose proof (case_win two_keys 4 1 [1] [1] (or_intror (conj eq_refl (conj eq_refl (conj eq_refl (conj eq_refl eq_refl)))))) as B.
  exact (conj A (conj B (conj (pair_in 4 4) (pair_in 4 1)))).
Qed.
