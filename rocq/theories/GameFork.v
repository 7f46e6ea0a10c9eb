(* The simulated game of Game.v: rewinding a forger which is shown simulated signatures. *)
From Coq Require Import ZArith List Bool Lia.
From Verif Require Import Base SpecField SpecBytes SpecScalar SpecCurve SpecDecode SpecEd448 SpecVerify SpecInternal SpecUniform SpecQueries SpecForger.
From Verif Require Import Bytes Errors Eddsa Goldilocks Game.
From Verif Require Import Field Edwards Isogeny CombMul BaseTables PrimeQ Decode Ed448 Order Equation Facts Sound Kernel Uniform Count Bind Protocol Structure SmallKeys Queries Transcripts Unbias Forking Forger.
Import ListNotations.
Open Scope Z_scope.
Local Opaque strings q448.

Lemma same_refl : forall x, same_string x x = true.
Proof. intro x. apply same_string_eq. reflexivity. Qed.
Lemma step_of_app : forall x T T', step_of x (T ++ T') = match step_of x T with Some j => Some j | None => option_map (fun j => (length T + j)%nat) (step_of x T') end.
Proof.
  intros x T T'. induction T as [ | e T IH ]; [ cbn [app length step_of]; destruct (step_of x T'); reflexivity | ]. cbn [app step_of length].
  destruct (recall x e); [ reflexivity | ]. rewrite IH. destruct (step_of x T); [ reflexivity | ]. destruct (step_of x T'); reflexivity.
Qed.
Lemma step_of_none : forall x T, step_of x T = None -> recall x (concat T) = None.
Proof.
  intros x. induction T as [ | e T IH ]; intro E; [ reflexivity | ]. cbn [step_of concat] in *. rewrite recall_app. destruct (recall x e); [ discriminate E | ].
  apply IH. destruct (step_of x T); [ discriminate E | reflexivity ].
Qed.
Lemma step_of_some : forall x T j, step_of x T = Some j -> (j < length T)%nat /\ recall x (concat (firstn j T)) = None /\ recall x (nth j T []) <> None.
Proof.
  intros x. induction T as [ | e T IH ]; intros j E; [ discriminate E | ]. cbn [step_of] in E. destruct (recall x e) eqn:R.
  - injection E as <-. cbn [length firstn concat nth recall]. split; [ lia | ]. split; [ reflexivity | ]. rewrite R. discriminate.
  - destruct (step_of x T) as [ i | ]; [ | discriminate E ]. injection E as <-. destruct (IH i eq_refl) as (L & F & K). cbn [length firstn concat nth]. rewrite recall_app, R.
    split; [ lia | ]. split; [ exact F | exact K ].
Qed.
Lemma signed_in : forall st m, is_signed st m = true <-> In m (map fst (signed st)).
Proof.
  intros st m. unfold is_signed. rewrite existsb_exists, in_map_iff. split.
  - intros (x & I & E). apply same_string_eq in E. exists x. split; [ symmetry; exact E | exact I ].
  - intros (x & <- & I). exists x. split; [ exact I | apply same_refl ].
Qed.
Lemma given_in : forall st sig m, is_given st sig m = true <-> exists sig', In (m, sig') (signed st) /\ firstn 57 sig = firstn 57 sig'.
Proof.
  intros st sig m. unfold is_given. rewrite existsb_exists. split.
  - intros ((m', s) & I & E). apply andb_prop in E as (E1 & E2). apply same_string_eq in E1. apply same_string_eq in E2. cbn [fst snd] in E1, E2. subst m'. exists s. split; assumption.
  - intros (s & I & E). exists (m, s). split; [ exact I | ]. cbn [fst snd]. rewrite E, !same_refl. reflexivity.
Qed.
Lemma sampled_in : forall T x c, (forall y a, In (y, a) T -> In a (strings 114)) -> In c (strings 114) -> In (sampled T x c) (strings 114).
Proof.
  intros T x c HT HC. unfold sampled. induction T as [ | (y, a) T IH ]; [ exact HC | ]. cbn [recall]. destruct (same_string x y); [ exact (HT y a (or_introl eq_refl)) | ].
  apply IH. intros z b I. exact (HT z b (or_intror I)).
Qed.
(* only the answer at the challenge counts *)
Lemma table_one : forall T x a, In a (strings 114) -> recall x T = Some a -> table_xof T x 114 = table_xof [(x, a)] x 114.
Proof.
  intros T x a I E. apply (proj1 (in_strings 114 a)) in I. destruct I as (L & _). rewrite (table_at T x a 114 E L), (table_at [(x, a)] x a 114); [ reflexivity | | exact L ].
  cbn [recall]. rewrite same_refl. reflexivity.
Qed.
Lemma sampled_recall : forall T x c, recall x (T ++ [(x, sampled T x c)]) = Some (sampled T x c).
Proof. intros T x c. rewrite recall_app. unfold sampled. destruct (recall x T) eqn:E; [ reflexivity | ]. cbn [recall]. rewrite same_refl. reflexivity. Qed.
Lemma table_bytes : forall T, (forall x a, In (x, a) T -> In a (strings 114)) -> is_xof (table_xof T).
Proof. intros T H. apply table_is_xof. intros x a I. exact (proj2 (proj1 (in_strings 114 a) (H x a I))). Qed.

(* what final says *)
Lemma final_facts : forall finish exact pub A st c, bytes pub -> denotes pub A -> (forall x a, In (x, a) (known st) -> In a (strings 114)) -> In c (strings 114) ->
  let sig := fst (finish (answers st)) in let m := snd (finish (answers st)) in let X := final_input finish A st in let a := sampled (known st) X c in
  ed448_verify (table_xof (known st ++ [(X, a)])) pub sig m = ed448_verify (table_xof [(X, a)]) pub sig m /\ is_xof (table_xof [(X, a)]) /\ In a (strings 114) /\
  (final finish exact pub A st c = true -> (forall sig', In (m, sig') (signed st) -> firstn 57 sig <> firstn 57 sig') /\ ed448_verify (table_xof [(X, a)]) pub sig m = Some (Ok true) /\ exact pub a sig m = true).
Proof.
  intros finish exact pub A st c B N HT HC sig m X a.
  assert (HA : In a (strings 114)) by (apply sampled_in; assumption).
  assert (X1 : is_xof (table_xof [(X, a)])). { apply table_bytes. intros x b [ E | [] ]. injection E as <- <-. exact HA. }
  assert (E : ed448_verify (table_xof (known st ++ [(X, a)])) pub sig m = ed448_verify (table_xof [(X, a)]) pub sig m).
  { apply (verify_queries _ _) with (A := A); [ | exact X1 | exact B | exact N | ].
    - apply table_bytes. intros x b I. apply in_app_or in I as [ I | [ E | [] ] ]; [ exact (HT x b I) | ]. injection E as <- <-. exact HA.
    - intros x [ <- | [] ]. change (rfc_dom ++ firstn 57 sig ++ eencode (subgroup_part A) ++ m) with X. apply table_one; [ exact HA | ]. apply sampled_recall. }
  split; [ exact E | ]. split; [ exact X1 | ]. split; [ exact HA | ]. intro F. unfold final in F. fold sig m X a in F. rewrite E in F. apply andb_prop in F as (F & F3). apply andb_prop in F as (F1 & F2).
  split; [ | split ].
  - intros sig' I K. rewrite (proj2 (given_in st sig m)) in F1; [ discriminate F1 | exists sig'; split; assumption ].
  - destruct (ed448_verify (table_xof [(X, a)]) pub sig m) as [ [ [ | ] | ] | ]; try discriminate F2. reflexivity.
  - exact F3.
Qed.

Lemma below_total : Z.of_nat (length (below q448)) = q448.
Proof. unfold below. rewrite map_length, seq_length. apply Z2Nat.id. discriminate. Qed.
Lemma coins_total : Z.of_nat (length (list_prod (strings 114) (below q448))) = 256 ^ 114 * q448.
Proof. rewrite prod_length, Nat2Z.inj_mul, strings_total, below_total. reflexivity. Qed.
Local Opaque below.

Section Sim.
Variable A : ept.
Hypothesis CA : on_curve A.
Hypothesis SA : subgroup_part A = A.
Variable n : nat.
Variable next : list (list Z) -> query.
Variable finish : list (list Z) -> list Z * list Z.
Variable exact : list Z -> list Z -> list Z -> list Z -> bool.
Local Notation coins_of := (vectors (list_prod (strings 114) (below q448))).
Local Notation step := (sim_step next A).
Local Notation start := (View [] [] []).
Hypothesis HE : forall a sig m, In a (strings 114) -> exact (eencode A) a sig m = true ->
  bytes sig /\ (exists R, denotes (firstn 57 sig) R) /\ ~ false_positive (table_xof [(forged_input A (sig, m), a)]) (eencode A) sig m.

Lemma step_ext : forall st c, exists e M, tab (step st c) = tab st ++ [e] /\ signed (step st c) = signed st ++ M /\
  ((exists x, next (answers st) = Hash x /\ e = [(x, sampled (known st) x (fst c))]) \/
   (exists m, next (answers st) = Sign m /\ (e = [] \/ exists R, on_curve R /\ e = [(rfc_dom ++ eencode R ++ eencode A ++ m, fst c)] /\ exists S, M = [(m, eencode R ++ S)]))).
Proof.
  intros st (c, S). unfold sim_step. destruct (next (answers st)) as [ x | m ].
  - eexists. exists []. cbn [ask_hash tab signed fst]. split; [ reflexivity | ]. split; [ rewrite app_nil_r; reflexivity | ]. left. exists x. split; reflexivity.
  - destruct (is_signed st m).
    + exists [], []. cbn [refuse tab signed]. split; [ reflexivity | ]. split; [ rewrite app_nil_r; reflexivity | ]. right. exists m. split; [ reflexivity | ]. left. reflexivity.
    + eexists. eexists. cbn [sim_sign tab signed fst snd]. split; [ reflexivity | ]. split; [ reflexivity | ]. right. exists m. split; [ reflexivity | ]. right. eexists. split; [ | split; [ reflexivity | eexists; reflexivity ] ].
      apply eadd_on; [ apply emul_on; exact ebase_on | ]. apply eneg_on. apply emul_on. exact CA.
Qed.
Lemma fold_ext : forall l st, exists U M, tab (fold_left step l st) = tab st ++ U /\ length U = length l /\ signed (fold_left step l st) = signed st ++ M.
Proof.
  induction l as [ | c l IH ]; intro st; [ exists [], []; cbn [fold_left length]; rewrite !app_nil_r; split; [ reflexivity | split; reflexivity ] | ]. cbn [fold_left].
  destruct (step_ext st c) as (e & M & E1 & E2 & _). destruct (IH (step st c)) as (U & M' & F1 & F2 & F3). rewrite E1 in F1. rewrite E2 in F3.
  exists (e :: U), (M ++ M'). rewrite F1, F3, <- !app_assoc. cbn [length]. rewrite F2. split; [ reflexivity | split; reflexivity ].
Qed.
Lemma fold_answers : forall l st, (forall c, In c l -> In (fst c) (strings 114)) -> (forall x a, In (x, a) (known st) -> In a (strings 114)) ->
  forall x a, In (x, a) (known (fold_left step l st)) -> In a (strings 114).
Proof.
  induction l as [ | c l IH ]; intros st HL HS x a I; [ exact (HS x a I) | ]. cbn [fold_left] in I. revert I. apply IH; [ intros d D; exact (HL d (or_intror D)) | ].
  intros y b. unfold known. destruct (step_ext st c) as (e & M & E & _ & K). rewrite E, concat_app. intro J. apply in_app_or in J as [ J | J ]; [ exact (HS y b J) | ].
  cbn [concat] in J. rewrite app_nil_r in J. pose proof (HL c (or_introl eq_refl)) as HC. destruct K as [ (x' & _ & ->) | (m & _ & [ -> | (R & _ & -> & _) ]) ].
  - destruct J as [ J | [] ]. injection J as <- <-. apply sampled_in; assumption.
  - destruct J.
  - destruct J as [ J | [] ]. injection J as <- <-. exact HC.
Qed.
Lemma coin_in : forall h c, In h (coins_of (S n)) -> In c h -> In (fst c) (strings 114).
Proof. intros h (c, s) H I. apply (vectors_in _ _ h _ H) in I. apply in_prod_iff in I. exact (proj1 I). Qed.
Lemma firstn_in : forall (T : Type) k (l : list T) x, In x (firstn k l) -> In x l.
Proof. intros T k l x I. rewrite <- (firstn_skipn k l). apply in_or_app. left. exact I. Qed.
Lemma end_answers : forall h, In h (coins_of (S n)) -> forall x a, In (x, a) (known (sim_end n next A h)) -> In a (strings 114).
Proof.
  intros h H. unfold sim_end. apply fold_answers; [ | intros x a [] ]. intros c I. apply (coin_in h c H). exact (firstn_in _ _ _ _ I).
Qed.
Lemma last_in : forall h, In h (coins_of (S n)) -> In (fst (nth n h ([], 0))) (strings 114).
Proof. intros h H. apply (coin_in h _ H). apply nth_In. rewrite (vectors_length _ _ _ H). lia. Qed.

(* the question which is asked at a step, if it is the forged one *)
Definition input_at (j : nat) (st : view) : list Z :=
  if Nat.ltb j n then match next (answers st) with Hash x => x | Sign _ => [] end else final_input finish A st.
Lemma at_fork : forall h, In h (coins_of (S n)) -> sim_wins n next finish exact A h = true ->
  let j := sim_fork n next finish A h in let X := final_input finish A (sim_end n next A h) in
  (j < S n)%nat /\ X = input_at j (fold_left step (firstn j h) start) /\ sampled (known (sim_end n next A h)) X (fst (nth n h ([], 0))) = fst (nth j h ([], 0)).
Proof.
  intros h H W j X. pose proof (vectors_length _ _ _ H) as LH.
  assert (NS : forall sig', In (snd (finish (answers (sim_end n next A h))), sig') (signed (sim_end n next A h)) -> firstn 57 (fst (finish (answers (sim_end n next A h)))) <> firstn 57 sig').
  { pose proof (final_facts finish exact (eencode A) A _ _ (eencode_bytes A) (denotes_eencode A CA) (end_answers h H) (last_in h H)) as (_ & _ & _ & K). exact (proj1 (K W)). }
  unfold sim_fork in j. fold X in j. destruct (step_of X (tab (sim_end n next A h))) as [ i | ] eqn:E; subst j.
  2:{ split; [ lia | ]. unfold input_at. rewrite Nat.ltb_irrefl. split; [ reflexivity | ]. unfold sampled. unfold known. rewrite (step_of_none _ _ E). reflexivity. }
  destruct (step_of_some _ _ _ E) as (Li & Fi & Ki). destruct (fold_ext (firstn n h) start) as (U & M0 & E1 & E2 & _). cbn [tab app] in E1.
  assert (LT : length (tab (sim_end n next A h)) = n) by (unfold sim_end; rewrite E1, E2, firstn_length; lia). rewrite LT in Li. clear E1 E2 U M0.
  split; [ lia | ]. unfold input_at. replace (Nat.ltb i n) with true by (symmetry; apply Nat.ltb_lt; exact Li).
  (* split the run at i *)
  assert (SP : firstn n h = firstn i h ++ nth i h ([], 0) :: skipn (S i) (firstn n h)).
  { rewrite <- (firstn_skipn i (firstn n h)) at 1. rewrite firstn_firstn, Nat.min_l by lia. f_equal.
    assert (NE : nth_error (firstn n h) i = Some (nth i h ([], 0))).
    { rewrite (nth_error_nth' (firstn n h) ([], 0)) by (rewrite firstn_length; lia). f_equal. rewrite <- (firstn_skipn n h) at 2. rewrite app_nth1 by (rewrite firstn_length; lia). reflexivity. }
    revert NE. generalize (firstn n h) (nth i h ([], 0)). clear. intros l d. revert i. induction l as [ | y l IH ]; intros [ | i ] NE; try discriminate NE.
    - injection NE as <-. reflexivity.
    - cbn [skipn]. apply IH. exact NE. }
  set (rest := skipn (S i) (firstn n h)) in *. clearbody rest. set (st := fold_left step (firstn i h) start) in *. set (c := nth i h ([], 0)) in *.
  assert (EE : sim_end n next A h = fold_left step rest (step st c)) by (unfold sim_end; rewrite SP, fold_left_app; reflexivity).
  destruct (fold_ext (firstn i h) start) as (U & M0 & E1 & E2 & _). cbn [tab app] in E1. fold st in E1. rewrite firstn_length in E2. rewrite Nat.min_l in E2 by lia.
  destruct (step_ext st c) as (e & M & T1 & T2 & K). destruct (fold_ext rest (step st c)) as (U' & M' & T3 & _ & T4). rewrite <- EE in T3, T4. rewrite T1 in T3. rewrite T2 in T4.
  rewrite <- E1 in E2. rewrite T3, <- app_assoc in Fi, Ki. rewrite <- E2 in Fi, Ki.
  rewrite firstn_app, Nat.sub_diag, firstn_O, app_nil_r, firstn_all in Fi. rewrite app_nth2, Nat.sub_diag in Ki by apply Nat.le_refl. cbn [app nth] in Ki.
  assert (RC : recall X (known (sim_end n next A h)) = recall X e).
  { unfold known. rewrite T3, <- app_assoc, concat_app, recall_app, Fi. cbn [app concat]. rewrite recall_app. destruct (recall X e); [ reflexivity | exfalso; apply Ki; reflexivity ]. }
  unfold sampled. rewrite RC. destruct K as [ (x & Q & ->) | (m & Q & [ -> | (R & CR & -> & (T & ->)) ]) ].
  - rewrite Q. cbn [recall] in *. destruct (same_string X x) eqn:S; [ | exfalso; apply Ki; reflexivity ]. apply same_string_eq in S. rewrite <- S. split; [ reflexivity | ].
    unfold sampled. fold (known st) in Fi. rewrite Fi. reflexivity.
  - exfalso. apply Ki. reflexivity.
  - exfalso. cbn [recall] in Ki. destruct (same_string X _) eqn:S in Ki; [ | apply Ki; reflexivity ]. apply same_string_eq in S.
    assert (B : (57 <= length (fst (finish (answers (sim_end n next A h)))))%nat).
    { pose proof (final_facts finish exact (eencode A) A _ _ (eencode_bytes A) (denotes_eencode A CA) (end_answers h H) (last_in h H)) as (_ & X1 & IA & K). destruct (K W) as (_ & V & EX).
      destruct (HE _ _ _ IA EX) as (BS & _). destruct (verify_errors _ X1 (eencode A) _ (snd (finish (answers (sim_end n next A h)))) (eencode_bytes A) BS) as (_ & _ & _ & _ & _ & (Z & _) & _).
      destruct Z as (_ & _ & L & _); [ exists true; exact V | lia ]. }
    unfold X, final_input, forged_input in S. apply app_inv_head in S. apply app_len_inj in S as (S0 & S); [ | rewrite firstn_length, eencode_len; lia ]. rewrite SA in S. apply app_inv_head in S.
    apply (NS (eencode R ++ T)); [ rewrite T4; apply in_or_app; left; apply in_or_app; right; left; rewrite S; reflexivity | ].
    rewrite S0, firstn_app, eencode_len, Nat.sub_diag, firstn_O, app_nil_r. symmetry. apply firstn_all2. rewrite eencode_len. apply Nat.le_refl.
Qed.
Lemma fork_reveals : forall h h' j, In h (coins_of (S n)) -> In h' (coins_of (S n)) -> let g := firstn j h ++ skipn j h' in
  sim_wins n next finish exact A h = true -> sim_wins n next finish exact A g = true ->
  sim_fork n next finish A h = j -> sim_fork n next finish A g = j -> le_val (fst (nth j h ([], 0))) mod q448 <> le_val (fst (nth j h' ([], 0))) mod q448 ->
  sim_reveals n next finish A h h' = true.
Proof.
  intros h h' j H H' g W W2 J J2 NE. pose proof (vectors_length _ _ _ H) as LH. pose proof (vectors_length _ _ _ H') as LH'.
  destruct (at_fork h H W) as (Lj & X1 & A1). rewrite J in Lj, X1, A1.
  assert (G : In g (coins_of (S n))).
  { unfold g. replace (S n) with (j + (S n - j))%nat by lia. apply vectors_join; apply (vectors_app _ j (S n - j)); replace (j + (S n - j))%nat with (S n) by lia; assumption. }
  destruct (at_fork g G W2) as (_ & X2 & A2). rewrite J2 in X2, A2.
  assert (Fg : firstn j g = firstn j h).
  { unfold g. rewrite firstn_app, firstn_firstn, Nat.min_id, firstn_length. replace (j - Nat.min j (length h))%nat with O by lia. rewrite firstn_O, app_nil_r. reflexivity. }
  assert (Ng : nth j g ([], 0) = nth j h' ([], 0)).
  { unfold g. rewrite app_nth2 by (rewrite firstn_length; lia). rewrite firstn_length. replace (j - Nat.min j (length h))%nat with O by lia.
    rewrite <- (firstn_skipn j h') at 2. rewrite app_nth2 by (rewrite firstn_length; lia). rewrite firstn_length. replace (j - Nat.min j (length h'))%nat with O by lia. reflexivity. }
  rewrite Fg in X2. rewrite Ng in A2.
  set (st := sim_end n next A h) in *. set (st2 := sim_end n next A g) in *. set (last := fst (nth n h ([], 0))) in *. set (last2 := fst (nth n g ([], 0))) in *.
  pose proof (final_facts finish exact (eencode A) A st last (eencode_bytes A) (denotes_eencode A CA) (end_answers h H) (last_in h H)) as (_ & O1 & I1 & K1). specialize (K1 W).
  pose proof (final_facts finish exact (eencode A) A st2 last2 (eencode_bytes A) (denotes_eencode A CA) (end_answers g G) (last_in g G)) as (_ & O2 & I2 & K2). specialize (K2 W2).
  rewrite A1 in O1, I1, K1. rewrite A2 in O2, I2, K2. destruct K1 as (_ & V1 & Q1). destruct K2 as (_ & V2 & Q2).
  destruct (HE _ _ _ I1 Q1) as (B1 & (R & NR) & F1). destruct (HE _ _ _ I2 Q2) as (B2 & _ & F2).
  assert (XX : final_input finish A st = final_input finish A st2) by (rewrite X1, X2; reflexivity).
  assert (L1 : (57 <= length (fst (finish (answers st))))%nat).
  { destruct (verify_errors _ O1 (eencode A) _ (snd (finish (answers st))) (eencode_bytes A) B1) as (_ & _ & _ & _ & _ & (Z & _) & _). destruct Z as (_ & _ & L & _); [ exists true; exact V1 | lia ]. }
  assert (L2 : (57 <= length (fst (finish (answers st2))))%nat).
  { destruct (verify_errors _ O2 (eencode A) _ (snd (finish (answers st2))) (eencode_bytes A) B2) as (_ & _ & _ & _ & _ & (Z & _) & _). destruct Z as (_ & _ & L & _); [ exists true; exact V2 | lia ]. }
  destruct (input_inj A _ _ L1 L2 XX) as (ER & EM).
  set (c1 := fst (nth j h ([], 0))) in *. set (c2 := fst (nth j h' ([], 0))) in *.
  assert (EC1 : rfc_challenge (table_xof [(final_input finish A st, c1)]) (firstn 57 (fst (finish (answers st)))) (eencode (subgroup_part A)) (snd (finish (answers st))) = le_val c1).
  { unfold rfc_challenge. apply (f_equal le_val). apply table_at; [ | exact (proj1 (proj1 (in_strings 114 c1) I1)) ].
    change (rfc_dom ++ firstn 57 (fst (finish (answers st))) ++ eencode (subgroup_part A) ++ snd (finish (answers st))) with (final_input finish A st). cbn [recall]. rewrite same_refl. reflexivity. }
  assert (EC2 : rfc_challenge (table_xof [(final_input finish A st2, c2)]) (firstn 57 (fst (finish (answers st)))) (eencode (subgroup_part A)) (snd (finish (answers st2))) = le_val c2).
  { rewrite ER. unfold rfc_challenge. apply (f_equal le_val). apply table_at; [ | exact (proj1 (proj1 (in_strings 114 c2) I2)) ].
    change (rfc_dom ++ firstn 57 (fst (finish (answers st2))) ++ eencode (subgroup_part A) ++ snd (finish (answers st2))) with (final_input finish A st2). cbn [recall]. rewrite same_refl. reflexivity. }
  pose proof (extraction _ _ O1 O2 (eencode A) _ _ _ _ A R (eencode_bytes A) B1 B2 (denotes_eencode A CA) NR ER V1 V2) as EX. cbv zeta in EX. rewrite EC1, EC2 in EX.
  destruct (EX NE) as [ (x & RX & EQ & PX) | [ K | K ] ]; [ | destruct (F1 K) | destruct (F2 K) ].
  assert (XE : sim_extracted n next finish A h h' = x).
  { unfold sim_extracted, sim_second. rewrite J. fold g. unfold sim_challenge. fold st st2 last last2. rewrite A1, A2. apply qdiv_ok; [ | exact EQ | exact RX ].
    intro Z0. apply NE. apply Z.mod_divide in Z0; [ | discriminate ]. destruct Z0 as (c & Hc). replace (le_val c1) with (le_val c2 + c * q448) by lia. apply Z.mod_add. discriminate. }
  unfold sim_reveals. rewrite XE, <- PX, SA, !Z.eqb_refl. reflexivity.
Qed.
Lemma few_coins : forall s, lsum (fun d => if le_val (fst d) mod q448 =? s then 1 else 0) (list_prod (strings 114) (below q448)) <= q448 * (share + 1).
Proof.
  intro s. rewrite lsum_prod. cbn [fst]. rewrite (lsum_ext _ (fun x => q448 * (if le_val x mod q448 =? s then 1 else 0))).
  - rewrite lsum_mul. apply Z.mul_le_mono_nonneg_l; [ discriminate | apply few_challenges ].
  - intros x _. rewrite lsum_const, below_total. reflexivity.
Qed.
Theorem sim_bound : let wins := tally (sim_wins n next finish exact A) (coins_of (S n)) in
  wins * wins <= Z.of_nat (S n) * (tally (fun p => sim_reveals n next finish A (fst p) (snd p)) (list_prod (coins_of (S n)) (coins_of (S n))) +
    wins * ((256 ^ 114 * q448) ^ Z.of_nat n * (q448 * (256 ^ 114 / q448 + 1)))).
Proof.
  intros wins. set (W := fun h => if sim_wins n next finish exact A h then Some (sim_fork n next finish A h) else None).
  assert (EW : wins = Forking.wins (list_prod (strings 114) (below q448)) (S n) W).
  { unfold wins, Forking.wins. rewrite lsum_tally. apply lsum_ext. intros h H. unfold W. destruct (sim_wins n next finish exact A h); reflexivity. }
  rewrite EW. change (256 ^ 114 / q448) with share. replace (Z.of_nat n) with (Z.of_nat (S n) - 1) by lia. rewrite <- coins_total.
  apply (forking (list_prod (strings 114) (below q448)) (S n) W) with (color := fun d => le_val (fst d) mod q448) (d0 := ([], 0)).
  - intros h j H E. unfold W in E. destruct (sim_wins n next finish exact A h) eqn:G; [ | discriminate E ]. apply some_inj in E. destruct (at_fork h H G) as (L & _). rewrite E in L. exact L.
  - exact few_coins.
  - intros h h' j H H' E E' NE. unfold W, fork in E, E'. destruct (sim_wins n next finish exact A h) eqn:G1; [ | discriminate E ].
    destruct (sim_wins n next finish exact A (firstn j h ++ skipn j h')) eqn:G2; [ | discriminate E' ]. apply some_inj in E, E'. exact (fork_reveals h h' j H H' G1 G2 E E' NE).
Qed.
End Sim.
