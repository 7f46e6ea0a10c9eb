(* The equation of RFC 8032 as the further condition of Game.v, and a forger which knows the discrete logarithm of its
   key and also asks the signer. *)
From Coq Require Import ZArith List Bool Lia.
From Verif Require Import Base SpecField SpecBytes SpecScalar SpecCurve SpecDecode SpecEd448 SpecVerify SpecInternal SpecUniform SpecProtocol SpecQueries SpecForger.
From Verif Require Import Bytes Errors Eddsa Goldilocks Game.
From Verif Require Import Field Edwards Isogeny CombMul BaseTables PrimeQ Decode Verify Ed448 Order Equation Facts Sound Kernel Uniform Count Bind Alias Api Samples Samples2 Interop Protocol Structure SmallKeys Queries Transcripts Unbias Forking Forger ForgerCase GameFork.
Import ListNotations.
Open Scope Z_scope.

Definition same_point (P Q : ept) : bool := (fval (fst P) =? fval (fst Q)) && (fval (snd P) =? fval (snd Q)).
Definition curve_test (P : ept) : bool :=
  let (x, y) := P in fval (fadd (fmul x x) (fmul y y)) =? fval (fadd fone (fmul ecd (fmul (fmul x x) (fmul y y)))).
(* pub and R are accepted by the decoder, R is the encoding of a point, and the equation of RFC 8032 holds for the challenge a *)
Definition rfc_test (pub a sig m : list Z) : bool :=
  let A := dpoint pub in let R := dpoint (firstn 57 sig) in
  forallb (fun b => (0 <=? b) && (b <? 256)) sig && (114 <=? length sig)%nat && negb (same_string pub (repeat 0 57)) && negb (same_string sig (repeat 0 114)) &&
  (accepts pub (fst A) && accepts (firstn 57 sig) (fst R)) && curve_test R &&
  same_point (emul (4 * le_val (firstn 57 (skipn 57 sig))) ebase) (eadd (emul 4 R) (emul (4 * le_val a) A)).
Local Opaque eencode emul eadd ed448_verify q448 le_bytes le_val decodable strings subgroup_part dpoint accepts.

Lemma same_point_eq : forall P Q, same_point P Q = true <-> P = Q.
Proof.
  intros (u, v) (u', v'). unfold same_point. cbn [fst snd]. rewrite andb_true_iff, !Z.eqb_eq. split.
  - intros (E1 & E2). rewrite (F_eq _ _ E1), (F_eq _ _ E2). reflexivity.
  - intro E. injection E as -> ->. split; reflexivity.
Qed.
Lemma curve_test_ok : forall P, curve_test P = true <-> on_curve P.
Proof. intros (x, y). unfold curve_test, on_curve. rewrite Z.eqb_eq. split; [ apply F_eq | intros ->; reflexivity ]. Qed.
Lemma bytes_test : forall l, forallb (fun b => (0 <=? b) && (b <? 256)) l = true <-> bytes l.
Proof.
  intro l. rewrite forallb_forall. unfold bytes. rewrite Forall_forall. split; intros H b I; specialize (H b I).
  - apply andb_prop in H as (H1 & H2). apply Z.leb_le in H1. apply Z.ltb_lt in H2. split; assumption.
  - destruct H as (H1 & H2). apply andb_true_intro. split; [ apply Z.leb_le; exact H1 | apply Z.ltb_lt; exact H2 ].
Qed.
Lemma differ : forall x y, negb (same_string x y) = true <-> x <> y.
Proof. intros x y. rewrite negb_true_iff. pose proof (same_string_eq x y) as K. destruct (same_string x y); split; intro H; try discriminate; [ exfalso; apply H; apply K; reflexivity | intro E; apply K in E; discriminate | reflexivity ]. Qed.
Lemma rfc_test_iff : forall A a sig m, on_curve A -> let R := dpoint (firstn 57 sig) in rfc_test (eencode A) a sig m = true <->
  bytes sig /\ (114 <= length sig)%nat /\ ~ zero_input (eencode A) sig /\ decodable (eencode A) /\ decodable (firstn 57 sig) /\ on_curve R /\
  rfc_equation (le_val (firstn 57 (skipn 57 sig))) R (le_val a) A.
Proof.
  intros A a sig m CA R. pose proof (denotes_dpoint _ _ (denotes_eencode A CA)) as EA. unfold rfc_test. cbv zeta. rewrite <- EA. fold R.
  rewrite !andb_true_iff, bytes_test, Nat.leb_le, !differ, curve_test_ok, same_point_eq. rewrite EA at 3. rewrite (accepts_decodable _ (eencode_len A)). unfold zero_input, rfc_equation. split.
  - intros ((((((H1 & H2) & H3) & H4) & (H5 & H6)) & H7) & H8). apply (accepts_decodable (firstn 57 sig)) in H6; [ | rewrite firstn_length; lia ].
    split; [ exact H1 | ]. split; [ exact H2 | ]. split; [ intros [ K | K ]; contradiction | ]. split; [ exact H5 | ]. split; [ exact H6 | ]. split; assumption.
  - intros (H1 & H2 & H3 & H5 & H6 & H7 & H8). apply (accepts_decodable (firstn 57 sig)) in H6; [ | rewrite firstn_length; lia ].
    split; [ | exact H8 ]. split; [ | exact H7 ]. split; [ | split; [ exact H5 | exact H6 ] ]. split; [ | intro K; apply H3; right; exact K ]. split; [ | intro K; apply H3; left; exact K ]. split; assumption.
Qed.
Lemma challenge_at : forall A sig m a, subgroup_part A = A -> In a (strings 114) ->
  rfc_challenge (table_xof [(forged_input A (sig, m), a)]) (firstn 57 sig) (eencode (subgroup_part A)) m = le_val a.
Proof.
  intros A sig m a SA IA. unfold rfc_challenge. apply (f_equal le_val). apply table_at; [ | exact (proj1 (proj1 (in_strings 114 a) IA)) ]. unfold forged_input. cbn [fst snd].
  generalize (rfc_dom ++ firstn 57 sig ++ eencode (subgroup_part A) ++ m). intro x. cbn [recall]. rewrite same_refl. reflexivity.
Qed.
Lemma one_xof : forall x a, In a (strings 114) -> is_xof (table_xof [(x, a)]).
Proof. intros x a IA. apply table_bytes. intros y b [ E | [] ]. injection E as <- <-. exact IA. Qed.
Theorem rfc_test_exact : forall A, on_curve A -> subgroup_part A = A -> forall a sig m, In a (strings 114) -> rfc_test (eencode A) a sig m = true ->
  bytes sig /\ (exists R, denotes (firstn 57 sig) R) /\ ~ false_positive (table_xof [(forged_input A (sig, m), a)]) (eencode A) sig m.
Proof.
  intros A CA SA a sig m IA T. apply (rfc_test_iff A a sig m CA) in T as (H1 & H2 & H3 & H4 & H5 & H6 & H7).
  split; [ exact H1 | ]. split; [ exists (dpoint (firstn 57 sig)); apply dpoint_denotes; exact H6 | ].
  apply (equation_exact _ (one_xof _ a IA) (eencode A) sig m A (dpoint (firstn 57 sig)) (eencode_bytes A) H1 H2 H3 H4 H5 (denotes_eencode A CA) (dpoint_denotes _ H6)).
  rewrite (challenge_at A sig m a SA IA). exact H7.
Qed.
(* and such forgeries are accepted *)
Theorem rfc_test_accepts : forall A, on_curve A -> subgroup_part A = A -> forall a sig m, In a (strings 114) -> rfc_test (eencode A) a sig m = true ->
  ed448_verify (table_xof [(forged_input A (sig, m), a)]) (eencode A) sig m = Some (Ok true).
Proof.
  intros A CA SA a sig m IA T. apply (rfc_test_iff A a sig m CA) in T as (H1 & H2 & H3 & H4 & H5 & H6 & H7).
  apply (verify_accepts _ (one_xof _ a IA) (eencode A) sig m A (dpoint (firstn 57 sig)) (eencode_bytes A) H1 H2 H3 H4 H5 (denotes_eencode A CA) (dpoint_denotes _ H6)).
  rewrite (challenge_at A sig m a SA IA). exact H7.
Qed.

(* with R, message and answer given, S is determined modulo q *)
Theorem rfc_test_unique : forall A a sig sig' m, on_curve A -> rfc_test (eencode A) a sig m = true -> rfc_test (eencode A) a sig' m = true -> firstn 57 sig = firstn 57 sig' ->
  le_val (firstn 57 (skipn 57 sig)) mod q448 = le_val (firstn 57 (skipn 57 sig')) mod q448.
Proof.
  intros A a sig sig' m CA T T' E. apply (rfc_test_iff A a sig m CA) in T as (_ & _ & _ & _ & _ & _ & Q). apply (rfc_test_iff A a sig' m CA) in T' as (_ & _ & _ & _ & _ & _ & Q').
  rewrite <- E in Q'. unfold rfc_equation in *. rewrite <- Q' in Q. apply base_inj in Q. exact (cancel4 _ _ Q).
Qed.
(* the message [1] is signed, then the challenge of B, B, m is asked for *)
Definition signer_next (m : list Z) (seen : list (list Z)) : query :=
  match seen with [] => Sign [1] | _ => Hash (forged_input ebase (known_sig [], m)) end.
Definition signer_finish (m : list Z) (seen : list (list Z)) : list Z * list Z := (known_sig (nth 1 seen []), m).
Lemma known_test : forall a m, rfc_test (eencode ebase) a (known_sig a) m = true.
Proof.
  intros a m. apply (rfc_test_iff ebase a _ m ebase_on). unfold known_sig. set (k := le_val a).
  destruct (sig_parts ebase ((1 + k) mod q448)) as (F1 & F2 & F3 & F4). destruct (small_S k) as (ES & LS).
  assert (L57 : firstn 57 (le_bytes 57 ((1 + k) mod q448)) = le_bytes 57 ((1 + k) mod q448)) by (apply firstn_all2; rewrite le_bytes_length; apply Nat.le_refl).
  rewrite F1, F2, L57, ES, F4. rewrite <- (denotes_dpoint _ _ (denotes_eencode ebase ebase_on)).
  split; [ exact F3 | ]. split; [ apply Nat.le_refl | ]. split; [ | split; [ exact base_decodable | split; [ exact base_decodable | split; [ exact ebase_on | ] ] ] ].
  - intros [ K | K ]; [ exact (base_not_zero K) | ]. apply (f_equal (firstn 57)) in K. rewrite F1 in K. exact (base_not_zero K).
  - unfold rfc_equation. rewrite mod_4q_mul by exact ebase_on. rewrite <- emul_add by exact ebase_on. f_equal. ring.
Qed.
(* a forged R which was not given out for m *)
Definition new_R (m : list Z) (h : list (list Z * Z)) : Prop := m <> [1] \/ (snd (nth 0 h ([], 0)) - le_val (fst (nth 0 h ([], 0)))) mod q448 <> 1.
Lemma given_R : forall c s, eencode (eadd (emul s ebase) (eneg (emul (le_val c) ebase))) = eencode ebase -> (s - le_val c) mod q448 = 1.
Proof.
  intros c s E. apply eencode_inj in E; [ | apply eadd_on; [ apply emul_on; exact ebase_on | apply eneg_on; apply emul_on; exact ebase_on ] | exact ebase_on ].
  rewrite <- Edwards.emul_opp in E by exact ebase_on. rewrite <- emul_add in E by exact ebase_on. rewrite <- (emul_1 ebase) in E at 2. apply base_inj in E. rewrite Z.add_opp_r in E. exact E.
Qed.
Lemma fresh_input : forall m c s a, m <> [1] \/ (s - le_val c) mod q448 <> 1 ->
  recall (rfc_dom ++ eencode ebase ++ eencode ebase ++ m) [(rfc_dom ++ eencode (eadd (emul s ebase) (eneg (emul (le_val c) ebase))) ++ eencode ebase ++ [1], a)] = None.
Proof.
  intros m c s a N. pose proof (given_R c s) as G. revert G. pose proof (eencode_len ebase) as L1. pose proof (eencode_len (eadd (emul s ebase) (eneg (emul (le_val c) ebase)))) as L2. revert L1 L2.
  generalize (eencode ebase) (eencode (eadd (emul s ebase) (eneg (emul (le_val c) ebase)))). intros u v L1 L2 G. cbn [recall]. destruct (same_string _ _) eqn:E; [ | reflexivity ]. exfalso.
  apply same_string_eq in E. apply app_inv_head in E. apply app_len_inj in E as (E1 & E2); [ | rewrite L1, L2; reflexivity ]. apply app_inv_head in E2. destruct N as [ N | N ]; [ exact (N E2) | ].
  apply N. apply G. symmetry. exact E1.
Qed.
Lemma signer_wins : forall m h, In h (vectors (list_prod (strings 114) (below q448)) 3) -> new_R m h -> sim_wins 2 (signer_next m) (signer_finish m) rfc_test ebase h = true.
Proof.
  intros m h H NR. pose proof (vectors_length _ _ _ H) as L. destruct h as [ | (c1, s1) [ | (c2, s2) [ | (c3, s3) [ | c h ] ] ] ]; try discriminate L.
  assert (I1 : In c1 (strings 114)) by exact (proj1 (proj1 (in_prod_iff _ _ c1 s1) (vectors_in _ _ _ _ H (or_introl eq_refl)))).
  assert (I2 : In c2 (strings 114)) by exact (proj1 (proj1 (in_prod_iff _ _ c2 s2) (vectors_in _ _ _ _ H (or_intror (or_introl eq_refl))))).
  clear H L. unfold new_R in NR. cbn [nth fst snd] in NR. unfold sim_wins, sim_end. cbn [firstn fold_left nth fst]. unfold sim_step. cbn [answers signer_next fst snd].
  change (is_signed (View [] [] []) [1]) with false. cbv iota.
  set (R := eadd (emul s1 ebase) (eneg (emul (le_val c1) ebase))).
  assert (E1 : sim_sign ebase (View [] [] []) [1] c1 s1 = View [[(rfc_dom ++ eencode R ++ eencode ebase ++ [1], c1)]] [eencode R ++ le_bytes 57 s1] [([1], eencode R ++ le_bytes 57 s1)]) by reflexivity.
  rewrite E1. cbn [answers signer_next]. unfold signer_next. rewrite known_input. set (X := rfc_dom ++ eencode ebase ++ eencode ebase ++ m). set (X1 := rfc_dom ++ eencode R ++ eencode ebase ++ [1]).
  assert (N1 : recall X [(X1, c1)] = None). { exact (fresh_input m c1 s1 c1 NR). }
  set (a1 := eencode R ++ le_bytes 57 s1). assert (E2 : ask_hash (View [[(X1, c1)]] [a1] [([1], a1)]) X c2 = View [[(X1, c1)]; [(X, c2)]] [a1; c2] [([1], a1)]).
  { unfold ask_hash. assert (E3 : sampled (known (View [[(X1, c1)]] [a1] [([1], a1)])) X c2 = c2).
    { unfold sampled. change (known (View [[(X1, c1)]] [a1] [([1], a1)])) with [(X1, c1)]. rewrite N1. reflexivity. }
    rewrite E3. reflexivity. }
  rewrite E2. set (st := View [[(X1, c1)]; [(X, c2)]] [a1; c2] [([1], a1)]).
  assert (ES : signer_finish m (answers st) = (known_sig c2, m)) by reflexivity.
  assert (EX : final_input (signer_finish m) ebase st = X) by (unfold final_input; rewrite ES; apply known_input).
  assert (RX : recall X (known st) = Some c2). { unfold known, st. cbn [tab concat app]. change [(X1, c1); (X, c2)] with ([(X1, c1)] ++ [(X, c2)]). rewrite recall_app, N1. generalize X. intro x. cbn [recall]. rewrite same_refl. reflexivity. }
  assert (HT : forall x a, In (x, a) (known st) -> In a (strings 114)).
  { intros x a [ E | [ E | [] ] ]; injection E as <- <-; assumption. }
  pose proof (final_facts (signer_finish m) rfc_test (eencode ebase) ebase st c2 (eencode_bytes ebase) (denotes_eencode ebase ebase_on) HT I2) as (F1 & _).
  cbv zeta in F1. rewrite ES, EX in F1. unfold sampled in F1. rewrite RX in F1. cbn [fst snd] in F1.
  unfold final. cbv zeta. rewrite ES, EX. unfold sampled. rewrite RX. cbn [fst snd]. rewrite F1, known_test.
  pose proof (rfc_test_accepts ebase ebase_on base_subgroup c2 (known_sig c2) m I2 (known_test c2 m)) as V. rewrite known_input in V. fold X in V. rewrite V.
  assert (G : is_given st (known_sig c2) m = false).
  { destruct (is_given st (known_sig c2) m) eqn:G; [ | reflexivity ]. exfalso. apply given_in in G as (sig & [ G | [] ] & E). injection G as <- <-. destruct NR as [ NR | NR ]; [ apply NR; reflexivity | ].
    apply NR. apply given_R. fold R. unfold known_sig in E. destruct (sig_parts ebase ((1 + le_val c2) mod q448)) as (P1 & _). destruct (sig_parts R s1) as (P2 & _). unfold a1 in E. rewrite P1, P2 in E. symmetry. exact E. }
  rewrite G. reflexivity.
Qed.
