(* A forger which knows the discrete logarithm of its key: it always wins, and its runs reveal what it knows. *)
From Coq Require Import ZArith List Bool Lia.
From Verif Require Import Base SpecField SpecBytes SpecScalar SpecCurve SpecDecode SpecEd448 SpecVerify SpecInternal SpecUniform SpecProtocol SpecQueries SpecForger.
From Verif Require Import Bytes Errors Eddsa Goldilocks.
From Verif Require Import Field Edwards Isogeny CombMul BaseTables PrimeQ Decode Ed448 Order Equation Facts Sound Kernel Uniform Count Bind Alias Api Samples Samples2 Interop Protocol Structure SmallKeys Queries Unbias Forking Forger.
Import ListNotations.
Open Scope Z_scope.

Definition known_sig (a : list Z) : list Z := eencode ebase ++ le_bytes 57 ((1 + le_val a) mod q448).
(* it asks for the challenge of R = B with the key B, and answers S = 1 + k *)
Definition known_next : strategy := fun _ => forged_input ebase (known_sig [], [7]).
Definition known_finish (seen : list (list Z)) : list Z * list Z := (known_sig (nth 0 seen []), [7]).
Local Opaque eencode emul eadd ed448_verify q448 le_bytes le_val decodable.

Local Opaque strings.
Lemma same_refl : forall x, same_string x x = true.
Proof. intro x. apply same_string_eq. reflexivity. Qed.
Lemma base_subgroup : subgroup_part ebase = ebase.
Proof. unfold subgroup_part. rewrite emul_add, base_q, emul_1, eadd_0_l by exact ebase_on. reflexivity. Qed.
Local Opaque subgroup_part.
Lemma known_input : forall a m, forged_input ebase (known_sig a, m) = rfc_dom ++ eencode ebase ++ eencode ebase ++ m.
Proof.
  intros a m. unfold forged_input, known_sig. cbn [fst snd]. destruct (sig_parts ebase ((1 + le_val a) mod q448)) as (F1 & _). rewrite F1, base_subgroup. reflexivity.
Qed.
Lemma known_run : forall a b, run ebase 1 known_next known_finish [a; b] = [(rfc_dom ++ eencode ebase ++ eencode ebase ++ [7], a); (rfc_dom ++ eencode ebase ++ eencode ebase ++ [7], a)].
Proof.
  intros a b. unfold run. cbn [ask recall app map snd]. unfold questions at 1 2 3 4. cbn [length Nat.ltb Nat.leb firstn map snd]. unfold known_next. rewrite !known_input.
  cbn [nth]. unfold questions. cbn [length Nat.ltb Nat.leb firstn map snd]. unfold known_finish. rewrite !known_input. generalize (rfc_dom ++ eencode ebase ++ eencode ebase ++ [7]). intro x. cbn [recall].
  rewrite (same_refl x). reflexivity.
Qed.
Lemma known_wins : forall h, In h (vectors (strings 114) 2) -> honest_win (eencode ebase) ebase 1 known_next known_finish h.
Proof.
  intros h H. pose proof (run_xof ebase 1 known_next known_finish h H) as X. pose proof (vectors_length _ _ _ H) as L.
  destruct h as [ | a [ | b [ | c h ] ] ]; try discriminate L. assert (La : length a = 114%nat) by (exact (proj1 (proj1 (in_strings 114 a) (vectors_in _ _ _ a H (or_introl eq_refl))))).
  unfold honest_win, output. rewrite known_run in *. cbn [map snd firstn]. unfold known_finish. cbn [nth fst snd].
  set (T := [(_, a); (_, a)]) in *. set (k := le_val a) in *. unfold known_sig. fold k.
  destruct (sig_parts ebase ((1 + k) mod q448)) as (F1 & F2 & F3 & F4). destruct (small_S k) as (ES & LS).
  assert (EK : rfc_challenge (table_xof T) (eencode ebase) (eencode ebase) [7] = k).
  { unfold rfc_challenge, k. apply (f_equal le_val). apply table_at; [ | exact La ]. unfold T. generalize (rfc_dom ++ eencode ebase ++ eencode ebase ++ [7]). intro x. cbn [recall]. rewrite (same_refl x). reflexivity. }
  assert (Q : rfc_equation ((1 + k) mod q448) ebase k ebase).
  { unfold rfc_equation. rewrite mod_4q_mul by exact ebase_on. rewrite <- emul_add by exact ebase_on. f_equal. ring. }
  assert (NS : eencode ebase ++ le_bytes 57 ((1 + k) mod q448) <> repeat 0 114).
  { intro Z0. apply (f_equal (firstn 57)) in Z0. rewrite F1 in Z0. exact (base_not_zero Z0). }
  assert (L57 : firstn 57 (le_bytes 57 ((1 + k) mod q448)) = le_bytes 57 ((1 + k) mod q448)) by (apply firstn_all2; rewrite le_bytes_length; apply Nat.le_refl).
  assert (DR : denotes (firstn 57 (eencode ebase ++ le_bytes 57 ((1 + k) mod q448))) ebase) by (rewrite F1; apply denotes_eencode; exact ebase_on).
  assert (V : ed448_verify (table_xof T) (eencode ebase) (eencode ebase ++ le_bytes 57 ((1 + k) mod q448)) [7] = Some (Ok true)).
  { apply (verify_accepts (table_xof T) X (eencode ebase) _ [7] ebase ebase).
    - apply eencode_bytes.
    - exact F3.
    - rewrite F4. apply Nat.le_refl.
    - intros [ K | K ]; [ exact (base_not_zero K) | exact (NS K) ].
    - exact base_decodable.
    - rewrite F1. exact base_decodable.
    - apply denotes_eencode. exact ebase_on.
    - rewrite F1. apply denotes_eencode. exact ebase_on.
    - rewrite F1, F2, L57, ES, base_subgroup, EK. exact Q. }
  split; [ exact F3 | ]. split; [ exists ebase; exact DR | ]. split; [ exact V | ].
  apply (equation_exact (table_xof T) X (eencode ebase) _ [7] ebase ebase).
  - apply eencode_bytes.
  - exact F3.
  - rewrite F4. apply Nat.le_refl.
  - intros [ K | K ]; [ exact (base_not_zero K) | exact (NS K) ].
  - exact base_decodable.
  - rewrite F1. exact base_decodable.
  - apply denotes_eencode. exact ebase_on.
  - rewrite F1. apply denotes_eencode. exact ebase_on.
  - rewrite F1, F2, L57, ES, base_subgroup, EK. exact Q.
Qed.
Lemma known_case : bytes (eencode ebase) /\ denotes (eencode ebase) ebase /\ forall h, In h (vectors (strings 114) 2) -> honest_win (eencode ebase) ebase 1 known_next known_finish h.
Proof. split; [ apply eencode_bytes | ]. split; [ apply denotes_eencode; exact ebase_on | ]. exact known_wins. Qed.
