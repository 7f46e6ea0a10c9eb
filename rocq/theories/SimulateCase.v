(* C95: one signature, made and simulated; and the keys for which the simulation can be told apart by someone who knows them. *)
From Coq Require Import ZArith List Bool Lia.
From Verif Require Import Base SpecField SpecBytes SpecScalar SpecCurve SpecDecode SpecEd448 SpecVerify SpecInternal SpecUniform SpecProtocol SpecQueries SpecForger.
From Verif Require Import Bytes Errors Eddsa Goldilocks Game Seen.
From Verif Require Samples GameExpandedCase DiscloseCase.
From Verif Require Import Field Edwards Isogeny CombMul BaseTables PrimeQ Decode Verify Ed448 Order Equation Facts Sound Kernel Uniform Count Bind Alias Api Protocol Structure SmallKeys Queries Transcripts Unbias Forking Forger GameFork GameHop GameReal Complete GameExpanded Repeat RepeatCase Simulate.
Import ListNotations.
Open Scope Z_scope.
Local Opaque strings q448 ed448_sign ed448_derive_public emul eencode.

Lemma vectors_cons : forall (X : Type) (ds : list X) m x h, In x ds -> In h (vectors ds m) -> In (x :: h) (vectors ds (S m)).
Proof. intros X ds m x h I J. cbn [vectors]. apply in_flat_map. exists x. split; [ exact I | ]. apply in_map. exact J. Qed.
Lemma vectors_two : forall (X : Type) (ds : list X) x y, In x ds -> In y ds -> In [x; y] (vectors ds 2).
Proof. intros X ds x y I J. apply vectors_cons; [ exact I | ]. apply vectors_cons; [ exact J | ]. left. reflexivity. Qed.
Lemma prefix_one : skipn 57 one = repeat 0 57. Proof. vm_compute. reflexivity. Qed.
Local Opaque Samples.seed one two secret_scalar.
Theorem same_sight : forall m, let s := secret_scalar one in let ask := fun (_ : list Z) (_ : list (list Z)) => Sign m in
  let sig := eencode ebase ++ le_bytes 57 ((1 + 2 * s) mod q448) in
  In Samples.seed seeds /\ In one (strings 114) /\ In [(two, one); (one, one)] (vectors (list_prod (strings 114) (strings 114)) 2) /\
  real_sight 1 ask Samples.seed one [(two, one); (one, one)] = Some (eencode (emul s ebase), [sig]) /\
  In [(two, (1 + 2 * s) mod q448); (one, 0)] (vectors (list_prod (strings 114) (below q448)) 2) /\
  sim_sight 1 ask (emul s ebase) [(two, (1 + 2 * s) mod q448); (one, 0)] = (eencode (emul s ebase), [sig]).
Proof.
  intros m s ask sig. pose proof (proj1 (seeds_in _) seed_in) as (KL & KB & KS).
  assert (I2 : In [(two, one); (one, one)] (vectors (list_prod (strings 114) (strings 114)) 2)).
  { exact (vectors_two _ _ _ _ (in_prod _ _ _ _ two_in one_in) (in_prod _ _ _ _ one_in one_in)). }
  assert (EE : own_end 1 (ask (eencode (emul s ebase))) s [(two, one); (one, one)] = View [[(rfc_dom ++ eencode ebase ++ eencode (emul s ebase) ++ m, two)]] [sig] [(m, sig)]).
  { unfold own_end. cbn [firstn fold_left]. unfold own_step. cbv beta delta [ask]. cbn [is_signed existsb signed fst snd]. unfold own_sign, nonce_input. cbn [tab answers signed app known concat sampled recall].
    rewrite DiscloseCase.one_is, DiscloseCase.two_is, emul_1. reflexivity. }
  split; [ exact seed_in | ]. split; [ exact one_in | ]. split; [ exact I2 | ]. split; [ | split ].
  - rewrite (sight_is 1 ask Samples.seed one [(two, one); (one, one)] KL KB KS one_in I2); fold s; rewrite EE; [ reflexivity | ].
    intros x [ <- | [] ]. cbn [fst]. split.
    + intro E. apply (f_equal (@length Z)) in E. rewrite !app_length, !eencode_len, KL in E. cbn [length rfc_dom] in E. lia.
    + rewrite prefix_one, app_assoc, firstn_app. assert (L : length (rfc_dom ++ eencode ebase) = 67%nat) by (rewrite app_length, eencode_len; reflexivity). rewrite L, Nat.sub_diag, firstn_O, app_nil_r, firstn_all2 by (rewrite L; apply Nat.le_refl).
      intro E. apply app_inv_head in E. exact (Samples.base_not_zero E).
  - apply vectors_two; apply in_prod; [ exact two_in | | exact one_in | ]; apply (proj2 (in_below _ _)); [ apply Z.mod_pos_bound; reflexivity | split; [ apply Z.le_refl | reflexivity ] ].
  - unfold sim_sight, sim_end. cbn [firstn fold_left]. unfold sim_step. cbv beta delta [ask]. cbn [is_signed existsb signed fst snd]. unfold sim_sign. cbn [tab answers signed app]. rewrite DiscloseCase.two_is.
    destruct (DiscloseCase.seed_case m [] ltac:(intros x a [])) as (_ & _ & _ & _ & _ & E). cbv zeta in E. fold s in E. rewrite E. reflexivity.
Qed.

(* the question for the input of the nonce of [7], and then the signature of [7]: is R the nonce times the base point? *)
Definition knowing (_ : list Z) (seen : list (list Z)) : query := match seen with [] => Hash GameExpandedCase.four_nonce | _ => Sign [7] end.
Definition tells (v : sight) : bool := same_string (firstn 57 (nth 1 (snd v) [])) (eencode (emul (le_val (nth 0 (snd v) [])) ebase)).
Lemma nonce_four : GameExpandedCase.four_nonce = enonce Samples.key4 [7]. Proof. reflexivity. Qed.
Local Opaque GameExpandedCase.four_nonce Samples.key4.
Theorem told : forall h, In h (vectors (list_prod (strings 114) (strings 114)) 3) -> judge tells (expanded_sight 2 knowing Samples.key4 h) = true.
Proof.
  intros h I. pose proof (vectors_length _ _ _ I) as L. destruct h as [ | (a, b) [ | (c, r) h ] ]; [ discriminate L | discriminate L | ].
  assert (HC : forall x, In x ((a, b) :: (c, r) :: h) -> In (fst x) (strings 114) /\ In (snd x) (strings 114)) by (intros (u, v) J; apply (vectors_in _ _ _ _ I) in J; apply in_prod_iff in J; exact J).
  destruct (HC _ (or_introl eq_refl)) as (IA & _). destruct (HC _ (or_intror (or_introl eq_refl))) as (IC & _). cbn [fst snd] in IA, IC. clear HC L I.
  rewrite (expanded_derives 2 knowing Samples.key4 key4_in). cbn [judge]. set (A := emul (secret_scalar Samples.key4) ebase). cbn [firstn fold_left].
  destruct (proj1 (expanded_in _) key4_in) as (KL & KB & KS).
  unfold real_step at 2. cbv beta iota delta [knowing answers]. unfold ask_hash. cbn [known tab concat sampled recall app fst signed answers].
  unfold real_step. cbv beta iota delta [knowing answers]. cbn [is_signed existsb signed fst snd]. unfold real_sign. change (known (View [[(GameExpandedCase.four_nonce, a)]] [a] [])) with [(GameExpandedCase.four_nonce, a)].
  assert (ED : length (derive_inputs Samples.key4) = 0%nat) by (unfold derive_inputs; rewrite KS; reflexivity). rewrite ED. cbv zeta. rewrite !(einputs_of Samples.key4 KS). cbn [nth]. fold A. rewrite <- nonce_four.
  set (x := GameExpandedCase.four_nonce). assert (ES : sampled [(x, a)] x r = a) by (unfold sampled; rewrite recall_this; reflexivity). rewrite ES. cbn [app answers tab signed].
  set (T1 := [(x, a); (x, a)]). set (y := rfc_dom ++ eencode (emul (le_val (table_xof T1 x 114)) ebase) ++ eencode A ++ [7]).
  assert (IS : In (sampled T1 y c) (strings 114)) by (apply sampled_in; [ intros u v [ E | [ E | [] ] ]; injection E as <- <-; exact IA | exact IC ]).
  set (a2 := sampled T1 y c) in *. clearbody a2. clearbody y. assert (X2 : is_xof (table_xof [(x, a); (x, a); (y, a2)])) by (apply table_bytes; intros u v [ E | [ E | [ E | [] ] ] ]; injection E as <- <-; [ exact IA | exact IA | exact IS ]).
  rewrite (sign_ok _ X2 Samples.key4 [7] KL KB), KS. unfold tells. cbn [snd nth app answers]. unfold rfc_sign_with. cbv zeta. fold (enonce Samples.key4 [7]). rewrite <- nonce_four. fold x.
  clearbody x. assert (TA : table_xof [(x, a); (x, a); (y, a2)] x 114 = a) by exact (table_at _ x a 114 (recall_this x a [(x, a); (y, a2)]) (proj1 (proj1 (in_strings 114 a) IA))). rewrite TA.
  rewrite firstn_app, eencode_len, Nat.sub_diag, firstn_O, app_nil_r, firstn_all2 by (rewrite eencode_len; apply Nat.le_refl). apply same_refl.
Qed.
Theorem told_shows : forall h, In h (vectors (list_prod (strings 114) (below q448)) 3) -> sim_shows 2 knowing (emul (secret_scalar Samples.key4) ebase) h = true.
Proof.
  intros h I. pose proof (vectors_length _ _ _ I) as L. destruct h as [ | (a, b) [ | (c, r) h ] ]; [ discriminate L | discriminate L | ].
  unfold sim_shows, sim_inputs, sim_end. cbn [firstn fold_left]. set (A := emul (secret_scalar Samples.key4) ebase).
  unfold sim_step at 2. cbv beta iota delta [knowing answers]. unfold ask_hash. cbn [known tab concat sampled recall app fst signed answers].
  unfold sim_step. cbv beta iota delta [knowing answers]. cbn [is_signed existsb signed fst snd]. unfold sim_sign. cbv zeta. cbn [known tab concat app map fst existsb].
  assert (E : shows A GameExpandedCase.four_nonce = true); [ | rewrite E; reflexivity ]. apply nonce_shows. rewrite nonce_four. unfold enonce.
  rewrite app_assoc, firstn_app. assert (K : length (rfc_dom ++ le_bytes 57 (secret_scalar Samples.key4)) = 67%nat) by (rewrite app_length, le_bytes_length; reflexivity). rewrite K, Nat.sub_diag, firstn_O, app_nil_r, firstn_all2 by (rewrite K; apply Nat.le_refl). reflexivity.
Qed.
