(* C87: a forger which knows the secret of Samples.key4 (public key 4 B) and asks for an input of a nonce. *)
From Coq Require Import ZArith List Bool Lia.
From Verif Require Import Base SpecField SpecBytes SpecScalar SpecCurve SpecDecode SpecEd448 SpecVerify SpecInternal SpecUniform SpecProtocol SpecQueries SpecForger.
From Verif Require Import Bytes Errors Eddsa Goldilocks Game.
From Verif Require Import Field Edwards Isogeny CombMul BaseTables PrimeQ Decode Verify Ed448 Order Equation Facts Sound Kernel Uniform Count Bind Alias Api Samples Samples2 Interop Protocol Structure SmallKeys Queries Unbias Forking Forger ForgerCase GameFork GameReal GameCase GameExpanded.
Import ListNotations.
Open Scope Z_scope.
Definition four_sig (a : list Z) : list Z := eencode ebase ++ le_bytes 57 ((1 + 4 * le_val a) mod q448).
Definition four_nonce : list Z := rfc_dom ++ le_bytes 57 (secret_scalar key4) ++ [7].
(* the input of the nonce for [7], then the challenge of R = B *)
Definition four_next (seen : list (list Z)) : query :=
  match seen with [] => Hash four_nonce | _ => Hash (forged_input (emul 4 ebase) (four_sig [], [7])) end.
Definition four_finish (seen : list (list Z)) : list Z * list Z := (four_sig (nth 1 seen []), [7]).
Local Opaque eencode emul eadd ed448_verify ed448_sign ed448_derive_public q448 le_bytes le_val decodable strings subgroup_part dpoint accepts secret_scalar.

Lemma four_key : emul (secret_scalar key4) ebase = emul 4 ebase.
Proof. destruct key4_ok as (_ & _ & _ & ->). apply base_inj. vm_compute. reflexivity. Qed.
Lemma four_on : on_curve (emul 4 ebase).
Proof. apply emul_on. exact ebase_on. Qed.
Lemma four_test : forall a m, rfc_test (eencode (emul 4 ebase)) a (four_sig a) m = true.
Proof.
  intros a m. apply (proj2 (rfc_test_iff (emul 4 ebase) a _ m four_on)). unfold four_sig. set (k := le_val a).
  destruct (sig_parts ebase ((1 + 4 * k) mod q448)) as (F1 & F2 & F3 & F4). destruct (small_S (4 * k)) as (ES & LS).
  assert (L57 : firstn 57 (le_bytes 57 ((1 + 4 * k) mod q448)) = le_bytes 57 ((1 + 4 * k) mod q448)) by (apply firstn_all2; rewrite le_bytes_length; apply Nat.le_refl).
  rewrite F1, F2, L57, ES, F4. rewrite <- (denotes_dpoint _ _ (denotes_eencode ebase ebase_on)).
  split; [ exact F3 | ]. split; [ apply Nat.le_refl | ]. split; [ | split; [ exact four_decodable | split; [ exact base_decodable | split; [ exact ebase_on | ] ] ] ].
  - intros [ K | K ]; [ | apply (f_equal (firstn 57)) in K; rewrite F1 in K; exact (base_not_zero K) ].
    revert K. apply subgroup_not_zero; [ exact four_on | ]. rewrite <- emul_mul by exact ebase_on. rewrite Z.mul_comm, emul_mul by exact ebase_on. rewrite base_q. apply emul_ezero.
  - unfold rfc_equation. rewrite mod_4q_mul by exact ebase_on. rewrite <- emul_mul by exact ebase_on. rewrite <- emul_add by exact ebase_on. f_equal. ring.
Qed.
Lemma four_input : forall a m, forged_input (emul 4 ebase) (four_sig a, m) = rfc_dom ++ eencode ebase ++ eencode (emul 4 ebase) ++ m.
Proof.
  intros a m. unfold forged_input, four_sig. cbn [fst snd]. destruct (sig_parts ebase ((1 + 4 * le_val a) mod q448)) as (F1 & _). rewrite F1, subgroup_base. reflexivity.
Qed.
Lemma four_fresh : forall c, recall (rfc_dom ++ eencode ebase ++ eencode (emul 4 ebase) ++ [7]) [(four_nonce, c)] = None.
Proof.
  intro c. apply recall_one. intro E. apply (f_equal (@length Z)) in E. unfold four_nonce in E. rewrite !app_length, !eencode_len, le_bytes_length in E. discriminate E.
Qed.
Local Opaque four_nonce.
(* the two steps ask the hash, with both signers *)
Lemma four_steps : forall (C : Type) (step : view -> list Z * C -> view) coins c1 s1 c2 s2 c,
  (forall st coin, step st coin = match four_next (answers st) with Hash x => ask_hash st x (fst coin) | Sign _ => step st coin end) ->
  In c1 (strings 114) -> In c2 (strings 114) -> coins = [(c1, s1); (c2, s2)] -> let X := rfc_dom ++ eencode ebase ++ eencode (emul 4 ebase) ++ [7] in
  let st := fold_left step coins (View [] [] []) in known st = [(four_nonce, c1); (X, c2)] /\ final four_finish rfc_test (eencode (emul 4 ebase)) (emul 4 ebase) st c = true.
Proof.
  intros C step coins c1 s1 c2 s2 c HS I1 I2 -> X. cbn [fold_left].
  assert (E1 : step (View [] [] []) (c1, s1) = View [[(four_nonce, c1)]] [c1] []) by (rewrite HS; reflexivity).
  assert (E2 : step (View [[(four_nonce, c1)]] [c1] []) (c2, s2) = View [[(four_nonce, c1)]; [(X, c2)]] [c1; c2] []).
  { rewrite HS. cbn [answers four_next fst]. unfold four_next. rewrite four_input. fold X. unfold ask_hash.
    assert (E3 : sampled (known (View [[(four_nonce, c1)]] [c1] [])) X c2 = c2).
    { unfold sampled. change (known (View [[(four_nonce, c1)]] [c1] [])) with [(four_nonce, c1)]. rewrite (four_fresh c1 : recall X _ = None). reflexivity. }
    rewrite E3. reflexivity. }
  rewrite E1, E2. set (st := View [[(four_nonce, c1)]; [(X, c2)]] [c1; c2] []). split; [ reflexivity | ].
  assert (ES : four_finish (answers st) = (four_sig c2, [7])) by reflexivity.
  assert (EX : final_input four_finish (emul 4 ebase) st = X) by (unfold final_input; rewrite ES; apply four_input).
  assert (RX : recall X (known st) = Some c2).
  { unfold known, st. cbn [tab concat app]. change [(four_nonce, c1); (X, c2)] with ([(four_nonce, c1)] ++ [(X, c2)]). rewrite recall_app, (four_fresh c1 : recall X _ = None). apply recall_this. }
  assert (HT : forall x a, In (x, a) (known st) -> In a (strings 114)).
  { intros x a [ E | [ E | [] ] ]; injection E as <- <-; assumption. }
  pose proof (final_facts four_finish rfc_test (eencode (emul 4 ebase)) (emul 4 ebase) st c2 (eencode_bytes _) (denotes_eencode _ four_on) HT I2) as (F1 & _).
  cbv zeta in F1. rewrite ES, EX in F1. unfold sampled in F1. rewrite RX in F1. cbn [fst snd] in F1.
  unfold final. cbv zeta. rewrite ES, EX. unfold sampled. rewrite RX. cbn [fst snd]. rewrite F1, four_test.
  pose proof (rfc_test_accepts (emul 4 ebase) four_on (subgroup_base 4) c2 (four_sig c2) [7] I2 (four_test c2 [7])) as V. rewrite four_input in V. fold X in V. rewrite V. reflexivity.
Qed.
Lemma four_coins : forall (C : Type) (l : list C) h, In h (vectors (list_prod (strings 114) l) 3) -> exists c1 s1 c2 s2 c, firstn 2 h = [(c1, s1); (c2, s2)] /\ nth 2 h c = c /\ In c1 (strings 114) /\ In c2 (strings 114).
Proof.
  intros C l h H. pose proof (vectors_length _ _ _ H) as L. destruct h as [ | (c1, s1) [ | (c2, s2) [ | c [ | c' h ] ] ] ]; try discriminate L.
  exists c1, s1, c2, s2, c. split; [ reflexivity | ]. split; [ reflexivity | ]. split.
  - exact (proj1 (proj1 (in_prod_iff _ _ c1 s1) (vectors_in _ _ _ _ H (or_introl eq_refl)))).
  - exact (proj1 (proj1 (in_prod_iff _ _ c2 s2) (vectors_in _ _ _ _ H (or_intror (or_introl eq_refl))))).
Qed.
Lemma key4_expanded : In key4 expanded.
Proof. apply (proj2 (expanded_in _)). destruct key4_ok as (L & B & S & _). split; [ exact L | split; assumption ]. Qed.
Theorem four_real : forall h, In h (vectors (list_prod (strings 114) (strings 114)) 3) -> real_expanded 2 four_next four_finish rfc_test key4 h = true.
Proof.
  intros h H. destruct (four_coins _ _ h H) as (c1 & s1 & c2 & s2 & c & E & _ & I1 & I2). destruct key4_ok as (L & B & S & _).
  assert (X0 : is_xof (table_xof [])) by (apply table_bytes; intros x a []).
  unfold real_expanded. rewrite (derive_public_ok _ X0 key4 L B), S. unfold key_scalar. rewrite S, four_key, E.
  apply (four_steps _ (real_step four_next key4) _ c1 s1 c2 s2 _); [ | exact I1 | exact I2 | reflexivity ].
  intros st coin. unfold real_step. destruct (four_next (answers st)); reflexivity.
Qed.
Theorem four_sim : forall h, In h (vectors (list_prod (strings 114) (below q448)) 3) ->
  sim_wins 2 four_next four_finish rfc_test (emul (secret_scalar key4) ebase) h = true /\ sim_reads 2 four_next four_finish (emul (secret_scalar key4) ebase) h = true.
Proof.
  intros h H. destruct (four_coins _ _ h H) as (c1 & s1 & c2 & s2 & c & E & _ & I1 & I2).
  assert (HS : forall A st coin, sim_step four_next A st coin = match four_next (answers st) with Hash x => ask_hash st x (fst coin) | Sign _ => sim_step four_next A st coin end)
    by (intros A st coin; unfold sim_step; destruct (four_next (answers st)); reflexivity).
  unfold sim_wins, sim_reads, sim_asked, sim_end. rewrite E. split.
  - rewrite four_key. exact (proj2 (four_steps _ (sim_step four_next _) _ c1 s1 c2 s2 _ (HS _) I1 I2 eq_refl)).
  - apply existsb_exists. exists four_nonce. split.
    + right. rewrite (proj1 (four_steps _ (sim_step four_next _) _ c1 s1 c2 s2 [] (HS _) I1 I2 eq_refl)). left. reflexivity.
    + apply nonce_shows. Local Transparent four_nonce. unfold four_nonce. rewrite app_assoc, firstn_app. rewrite firstn_all2 by (rewrite app_length, le_bytes_length; apply Nat.le_refl).
      rewrite app_length, le_bytes_length. apply app_nil_r.
Qed.
