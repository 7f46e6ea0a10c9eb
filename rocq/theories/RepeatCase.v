(* Answers of C88 and C89 with and without a repetition. *)
From Coq Require Import ZArith List Bool Lia.
From Verif Require Import Base SpecField SpecBytes SpecScalar SpecCurve SpecDecode SpecEd448 SpecVerify SpecInternal SpecUniform SpecQueries SpecForger SpecRepeat.
From Verif Require Import Bytes Errors Eddsa Goldilocks Lib Game.
From Verif Require Samples Witness CompleteCase.
From Verif Require Import Field Edwards Isogeny CombMul BaseTables PrimeQ Decode Ed448 Order Equation Facts Sound Kernel Uniform Count Bind Protocol Structure SmallKeys Queries Transcripts Unbias Forking Forger GameFork GameHop GameReal Complete GameExpanded Repeat.
Import ListNotations.
Open Scope Z_scope.
Local Opaque strings q448 ed448_verify ed448_sign ed448_derive_public emul eencode.

Lemma seed_nonces_of : forall key d T ms h, In key seeds -> In d (strings 114) -> bytes_table T -> NoDup ms -> In h (vectors (strings 114) (length ms)) ->
  map (the_R (table_xof ((key, d) :: combine (map (fun m => rfc_dom ++ skipn 57 d ++ m) ms) h ++ T)) key) ms = map (fun a => eencode (emul (le_val a) ebase)) h.
Proof.
  intros key d T ms h IK ID BT ND I. apply (proj1 (seeds_in _)) in IK as (L & B & ES). apply (proj1 (in_strings 114 d)) in ID as (Ld & Bd).
  apply (nonces_of key (skipn 57 d) [(key, d)] T ms L B ND); [ intros x a [ E | [] ]; injection E as <- <-; exact Bd | exact BT | | | exact I ].
  - intros g m. unfold nonce_input. rewrite ES. rewrite (table_at _ key d 114); [ reflexivity | | exact Ld ]. cbn [app recall]. rewrite same_refl. reflexivity.
  - intro m. cbn [recall]. rewrite same_length; [ reflexivity | ]. rewrite !app_length, skipn_length, Ld, L. cbn [length rfc_dom]. lia.
Qed.
Lemma expanded_nonces_of : forall key T ms h, In key expanded -> bytes_table T -> NoDup ms -> In h (vectors (strings 114) (length ms)) ->
  map (the_R (table_xof (combine (map (fun m => rfc_dom ++ le_bytes 57 (secret_scalar key) ++ m) ms) h ++ T)) key) ms = map (fun a => eencode (emul (le_val a) ebase)) h.
Proof.
  intros key T ms h IK BT ND I. apply (proj1 (expanded_in _)) in IK as (L & B & ES).
  apply (nonces_of key (le_bytes 57 (secret_scalar key)) [] T ms L B ND); [ intros x a [] | exact BT | | reflexivity | exact I ].
  intros g m. unfold nonce_input. rewrite ES. reflexivity.
Qed.
Definition one : list Z := le_bytes 114 1.
Definition two : list Z := le_bytes 114 2.
Definition texts : list (list Z) := [[1]; [7]].
Lemma one_in : In one (strings 114).
Proof. apply (proj2 (in_strings 114 _)). split; [ reflexivity | apply le_bytes_bytes ]. Qed.
Lemma two_in : In two (strings 114).
Proof. apply (proj2 (in_strings 114 _)). split; [ reflexivity | apply le_bytes_bytes ]. Qed.
Lemma texts_differ : NoDup texts.
Proof. repeat constructor; cbn; intuition discriminate. Qed.
Lemma pair_in : forall (A : Type) (ds : list A) a b, In a ds -> In b ds -> In [a; b] (vectors ds 2).
Proof. intros A ds a b Ia Ib. cbn [vectors]. apply in_flat_map. exists a. split; [ exact Ia | ]. apply in_map. apply in_flat_map. exists b. split; [ exact Ib | left; reflexivity ]. Qed.
Lemma one_two : same_string (eencode (emul (le_val one) ebase)) (eencode (emul (le_val two) ebase)) = false.
Proof.
  apply same_false. intro E. apply eencode_inj in E; [ | apply emul_on; exact ebase_on | apply emul_on; exact ebase_on ]. apply base_inj in E. revert E. apply Z.eqb_neq. vm_compute. reflexivity.
Qed.
Local Opaque one two Samples.seed Samples.key4 Witness.zero_key.
Lemma twice : forall x, repeats [x; x] = true.
Proof. intro x. cbn [repeats existsb]. rewrite same_refl. reflexivity. Qed.
Lemma once : forall x y, same_string x y = false -> repeats [x; y] = false.
Proof. intros x y E. cbn [repeats existsb]. rewrite E. reflexivity. Qed.
Lemma seed_in : In Samples.seed seeds.
Proof. destruct Samples.seed_ok as (LS & BS & ES). apply (proj2 (seeds_in _)). split; [ exact LS | split; assumption ]. Qed.
Lemma key4_in : In Samples.key4 expanded.
Proof. destruct Samples.key4_ok as (L4 & B4 & E4 & _). apply filter_In. split; [ exact (proj2 (in_strings 57 _) (conj L4 B4)) | exact E4 ]. Qed.
Theorem seed_case : forall T, bytes_table T ->
  let run h := map (the_R (table_xof ((Samples.seed, one) :: combine (map (fun m => rfc_dom ++ skipn 57 one ++ m) texts) h ++ T)) Samples.seed) texts in
  In Samples.seed seeds /\ In one (strings 114) /\ NoDup texts /\ In [one; one] (vectors (strings 114) 2) /\ In [one; two] (vectors (strings 114) 2) /\
  repeats (run [one; one]) = true /\ repeats (run [one; two]) = false.
Proof.
  intros T BT run. pose proof seed_in as IS. pose proof one_in as I1. split; [ exact IS | ]. split; [ exact I1 | ]. split; [ exact texts_differ | ].
  split; [ apply pair_in; exact I1 | ]. split; [ apply pair_in; [ exact I1 | exact two_in ] | ].
  pose proof (fun h => seed_nonces_of Samples.seed one T texts h IS I1 BT texts_differ) as K. change (length texts) with 2%nat in K. change (forall h, In h (vectors (strings 114) 2) -> run h = map (fun a => eencode (emul (le_val a) ebase)) h) in K.
  rewrite (K _ (pair_in _ _ _ _ one_in one_in)), (K _ (pair_in _ _ _ _ one_in two_in)). clear K.
  cbn [map]. split; [ apply twice | apply once; exact one_two ].
Qed.
Theorem expanded_case : forall T, bytes_table T ->
  let run h := map (the_R (table_xof (combine (map (fun m => rfc_dom ++ le_bytes 57 (secret_scalar Samples.key4) ++ m) texts) h ++ T)) Samples.key4) texts in
  In Samples.key4 expanded /\ repeats (run [one; one]) = true /\ repeats (run [one; two]) = false.
Proof.
  intros T BT run. pose proof key4_in as IK. split; [ exact IK | ].
  pose proof (fun h => expanded_nonces_of Samples.key4 T texts h IK BT texts_differ) as K. change (length texts) with 2%nat in K. change (forall h, In h (vectors (strings 114) 2) -> run h = map (fun a => eencode (emul (le_val a) ebase)) h) in K.
  rewrite (K _ (pair_in _ _ _ _ one_in one_in)), (K _ (pair_in _ _ _ _ one_in two_in)). clear K.
  cbn [map]. split; [ apply twice | apply once; exact one_two ].
Qed.
Theorem keys_case : forall T, bytes_table T ->
  let run w := map (the_key (table_xof (w ++ T))) (map fst w) in
  let some := (Samples.key4, one) in let other := (Witness.zero_key, one) in
  In [some; some] (vectors (list_prod (strings 57) (strings 114)) 2) /\ In [some; other] (vectors (list_prod (strings 57) (strings 114)) 2) /\
  repeats (run [some; some]) = true /\ repeats (run [some; other]) = false.
Proof.
  intros T BT run some other. destruct Samples.key4_ok as (L4 & B4 & E4 & V4). destruct Samples.identity_case as (LZ & BZ & VZ).
  assert (I1 : In some (list_prod (strings 57) (strings 114))) by (apply in_prod; [ exact (proj2 (in_strings 57 _) (conj L4 B4)) | exact one_in ]).
  assert (I2 : In other (list_prod (strings 57) (strings 114))) by (apply in_prod; [ exact (proj2 (in_strings 57 _) (conj LZ BZ)) | exact one_in ]).
  split; [ apply pair_in; exact I1 | ]. split; [ apply pair_in; assumption | ].
  split; [ unfold run; cbn [map fst]; apply twice | ].
  assert (ND : NoDup (map fst [some; other])). { unfold some, other. cbn [map fst]. apply NoDup_cons; [ | apply NoDup_cons; [ intros [] | apply NoDup_nil ] ]. intros [ E | [] ]. revert E. vm_compute. discriminate. }
  unfold run. rewrite (keys_of [some; other] T 2 BT (pair_in _ _ _ _ I1 I2) ND). cbn [map]. apply once. unfold public_of, secret_of, some, other. cbn [fst snd].
  assert (EZ : enc_sign Witness.zero_key = true) by (vm_compute; reflexivity). assert (VZ' : secret_scalar Witness.zero_key = 4 * q448) by (vm_compute; reflexivity).
  rewrite E4, EZ, V4, VZ'. apply same_false. intro E. apply eencode_inj in E; [ | apply emul_on; exact ebase_on | apply emul_on; exact ebase_on ]. apply base_inj in E. revert E. apply Z.eqb_neq. vm_compute. reflexivity.
Qed.
