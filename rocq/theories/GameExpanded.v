(* C87: the game with signing queries for keys which are the secret scalar itself. *)
From Coq Require Import ZArith List Bool Lia.
From Verif Require Import Base SpecField SpecBytes SpecScalar SpecCurve SpecDecode SpecEd448 SpecVerify SpecInternal SpecUniform SpecQueries SpecForger.
From Verif Require Import Bytes Errors Eddsa Goldilocks Game.
From Verif Require Import Field Edwards Isogeny CombMul BaseTables PrimeQ Decode Ed448 Order Equation Facts Sound Kernel Uniform Count Bind Protocol Structure SmallKeys Queries Transcripts Unbias Forking Forger GameFork GameHop GameReal.
Import ListNotations.
Open Scope Z_scope.
Local Opaque strings q448 below.

Section Hop1.
Variable key : list Z.
Variable next : list (list Z) -> query.
Variable finish : list (list Z) -> list Z * list Z.
Variable exact : list Z -> list Z -> list Z -> list Z -> bool.
Hypothesis KL : length key = 57%nat.
Hypothesis KB : bytes key.
Hypothesis KS : enc_sign key = true.
Local Notation s := (secret_scalar key).
Local Notation A := (emul (secret_scalar key) ebase).
Local Notation prefix := (le_bytes 57 (secret_scalar key)).
Definition other (x : list Z) : Prop := firstn 67 x <> rfc_dom ++ prefix.
Definition enonce (m : list Z) : list Z := rfc_dom ++ prefix ++ m.
Definition matched (st st1 : view) : Prop :=
  answers st = answers st1 /\ signed st = signed st1 /\ (forall x, other x -> recall x (known st) = recall x (known st1)) /\
  (forall m, ~ In m (map fst (signed st)) -> recall (enonce m) (known st) = None) /\
  (forall x a, In (x, a) (known st) -> In a (strings 114)) /\ (forall x a, In (x, a) (known st1) -> In a (strings 114)).
Lemma enonce_private : forall m, ~ other (enonce m).
Proof.
  intros m H. apply H. unfold enonce. rewrite app_assoc, firstn_app. assert (L : length (rfc_dom ++ prefix) = 67%nat) by (rewrite app_length, le_bytes_length; reflexivity).
  rewrite firstn_all2 by lia. rewrite L, Nat.sub_diag. cbn [firstn]. apply app_nil_r.
Qed.
Lemma einputs_of : forall T m, sign_inputs (table_xof T) key m =
  [enonce m; rfc_dom ++ eencode (emul (le_val (table_xof T (enonce m) 114)) ebase) ++ eencode A ++ m].
Proof. intros T m. unfold sign_inputs, derive_inputs, sign_prefix, key_scalar. rewrite KS. reflexivity. Qed.
Local Notation step1 := (own_step (secret_scalar key) next).
Lemma step_matched : forall st st1 coin, matched st st1 -> In (fst coin) (strings 114) -> In (snd coin) (strings 114) ->
  (forall x a, In (x, a) (known (step1 st1 coin)) -> other x) -> matched (real_step next key st coin) (step1 st1 coin).
Proof.
  intros st st1 (c, rho) (R1 & R2 & R3 & R5 & R6 & R7) IC IR P. cbn [fst snd] in IC, IR. unfold real_step, own_step in *. rewrite <- R1 in *.
  destruct (next (answers st)) as [ x | m ]; cbn [fst snd] in *.
  - unfold ask_hash in *. cbv zeta in *. rewrite known_app in P. assert (PX : other x) by (apply (P x (sampled (concat (tab st1)) x c)); apply in_or_app; right; left; reflexivity).
    assert (ES : sampled (known st) x c = sampled (known st1) x c) by (unfold sampled; rewrite (R3 x PX); reflexivity).
    assert (IS : In (sampled (known st) x c) (strings 114)) by (apply sampled_in; assumption).
    unfold matched. rewrite !known_app. cbn [answers signed]. rewrite <- ES. fold (known st) (known st1). split; [ congruence | ]. split; [ exact R2 | ]. split; [ | split; [ | split ] ].
    + intros y PY. rewrite !recall_app, (R3 y PY). reflexivity.
    + intros m I. rewrite recall_app, (R5 m I). apply recall_one. intro E. apply (enonce_private m). rewrite E. exact PX.
    + intros y a I. apply in_app_or in I as [ I | [ E | [] ] ]; [ exact (R6 y a I) | ]. injection E as <- <-. exact IS.
    + intros y a I. apply in_app_or in I as [ I | [ E | [] ] ]; [ exact (R7 y a I) | ]. injection E as <- <-. exact IS.
  - rewrite <- (signed_same st st1 m R2) in *. destruct (is_signed st m) eqn:SG.
    + unfold refuse, matched. rewrite !known_app, !app_nil_r. cbn [answers signed]. fold (known st) (known st1). rewrite R1.
      split; [ reflexivity | ]. split; [ exact R2 | ]. split; [ exact R3 | ]. split; [ exact R5 | ]. split; assumption.
    + assert (NI : ~ In m (map fst (signed st))) by (intro I; apply signed_in in I; congruence). pose proof (R5 m NI) as RN. set (r := le_val rho) in *. set (T := known st) in *.
      assert (E1 : nth 0 (sign_inputs (table_xof T) key m) [] = enonce m) by (rewrite (einputs_of T m); reflexivity).
      assert (E2 : sampled T (enonce m) rho = rho) by (unfold sampled; rewrite RN; reflexivity).
      set (T1 := T ++ [(enonce m, rho)]).
      assert (RN' : recall (enonce m) T1 = Some rho) by (unfold T1; rewrite recall_app, RN; apply recall_this).
      assert (LR : length rho = 114%nat) by exact (proj1 (proj1 (in_strings 114 rho) IR)).
      set (x2 := nonce_input (secret_scalar key) m r).
      assert (E3 : nth 1 (sign_inputs (table_xof T1) key m) [] = x2) by (rewrite (einputs_of T1 m), (table_at T1 _ rho 114 RN' LR); reflexivity).
      unfold own_sign in *. cbv zeta in *. fold x2 in P |- *. rewrite known_app in P. set (a2 := sampled (known st1) x2 c) in *.
      assert (PX : other x2) by (apply (P x2 a2); apply in_or_app; right; left; reflexivity).
      assert (NX : x2 <> enonce m) by (intro E; apply (enonce_private m); rewrite <- E; exact PX).
      assert (E4 : sampled T1 x2 c = a2).
      { unfold a2, sampled, T1. rewrite recall_app, (R3 x2 PX). destruct (recall x2 (known st1)); [ reflexivity | ]. rewrite (recall_one _ _ _ NX). reflexivity. }
      assert (IA : In a2 (strings 114)) by (apply sampled_in; assumption).
      assert (LA : length a2 = 114%nat) by exact (proj1 (proj1 (in_strings 114 a2) IA)).
      set (T2 := T1 ++ [(x2, a2)]).
      assert (X2 : is_xof (table_xof T2)).
      { apply table_bytes. intros y a I. unfold T2, T1 in I. apply in_app_or in I as [ I | [ E | [] ] ]; [ | injection E as <- <-; exact IA ].
        apply in_app_or in I as [ I | [ E | [] ] ]; [ exact (R6 y a I) | injection E as <- <-; exact IR ]. }
      assert (RN'' : recall (enonce m) T2 = Some rho) by (unfold T2; rewrite recall_app, RN'; reflexivity).
      assert (RX : recall x2 T2 = Some a2) by (unfold T2; rewrite <- E4; apply sampled_recall).
      assert (E5 : ed448_sign (table_xof T2) key m = Some (eencode (emul r ebase) ++ le_bytes 57 ((r + le_val a2 * secret_scalar key) mod q448))).
      { rewrite (sign_ok (table_xof T2) X2 key m KL KB), KS. unfold rfc_sign_with. fold (enonce m). rewrite (table_at T2 _ rho 114 RN'' LR).
        fold r. change (rfc_dom ++ eencode (emul r ebase) ++ eencode A ++ m) with x2. cbv zeta. rewrite (table_at T2 _ a2 114 RX LA). reflexivity. }
      assert (ED : length (derive_inputs key) = 0%nat) by (unfold derive_inputs; rewrite KS; reflexivity).
      unfold real_sign. cbv zeta. fold T. rewrite ED, E1, E2. fold T1. rewrite E3, E4. fold T2. rewrite E5. unfold matched. rewrite !known_app. cbn [answers signed].
      fold (known st) (known st1). fold T. split; [ rewrite R1; reflexivity | ]. split; [ rewrite R2; reflexivity | ]. split; [ | split; [ | split ] ].
      * intros y PY. rewrite !recall_app, (R3 y PY). destruct (recall y (known st1)); [ reflexivity | ]. cbn [recall]. rewrite (same_false y (enonce m)); [ reflexivity | ].
        intro E. apply (enonce_private m). rewrite <- E. exact PY.
      * intros m' I. rewrite recall_app, (R5 m'); [ | intro J; apply I; rewrite map_app; apply in_or_app; left; exact J ]. cbn [recall]. rewrite (same_false (enonce m') (enonce m)).
        -- rewrite (same_false (enonce m') x2); [ reflexivity | ]. intro E. apply (enonce_private m'). rewrite E. exact PX.
        -- intro E. unfold enonce in E. apply app_inv_head in E. apply app_inv_head in E. apply I. rewrite map_app. apply in_or_app. right. left. symmetry. exact E.
      * intros y a I. apply in_app_or in I as [ I | [ E | [ E | [] ] ] ]; [ exact (R6 y a I) | injection E as <- <-; exact IR | injection E as <- <-; exact IA ].
      * intros y a I. apply in_app_or in I as [ I | [ E | [] ] ]; [ exact (R7 y a I) | injection E as <- <-; exact IA ].
Qed.
Lemma fold_matched : forall l st st1, matched st st1 -> (forall coin, In coin l -> In (fst coin) (strings 114) /\ In (snd coin) (strings 114)) ->
  (forall x a, In (x, a) (known (fold_left step1 l st1)) -> other x) -> matched (fold_left (real_step next key) l st) (fold_left step1 l st1).
Proof.
  induction l as [ | c l IH ]; intros st st1 R HC P; [ exact R | ]. cbn [fold_left] in *. destruct (fold1_grows s next l (step1 st1 c)) as (e & E & _).
  apply IH; [ | intros coin I; apply HC; right; exact I | exact P ]. destruct (HC c (or_introl eq_refl)) as (C1 & C2). apply step_matched; [ exact R | exact C1 | exact C2 | ].
  intros x a I. apply (P x a). rewrite E. apply in_or_app. left. exact I.
Qed.
Lemma final_matched : forall st st1 c, matched st st1 -> In c (strings 114) -> other (final_input finish A st1) -> final finish exact (eencode A) A st c = final finish exact (eencode A) A st1 c.
Proof.
  intros st st1 c (R1 & R2 & R3 & R5 & R6 & R7) IC P. pose proof (emul_on s ebase ebase_on) as CA.
  pose proof (final_facts finish exact (eencode A) A st c (eencode_bytes A) (denotes_eencode A CA) R6 IC) as (F1 & _).
  pose proof (final_facts finish exact (eencode A) A st1 c (eencode_bytes A) (denotes_eencode A CA) R7 IC) as (G1 & _). cbv zeta in F1, G1.
  unfold final. cbv zeta. rewrite F1, G1.
  assert (EX : final_input finish A st = final_input finish A st1) by (unfold final_input; rewrite R1; reflexivity).
  assert (ES : sampled (known st) (final_input finish A st) c = sampled (known st1) (final_input finish A st1) c) by (unfold sampled; rewrite EX, (R3 _ P); reflexivity).
  rewrite ES, EX, R1, (given_same st st1 _ _ R2). reflexivity.
Qed.
End Hop1.

Lemma expanded_in : forall k, In k expanded <-> length k = 57%nat /\ bytes k /\ enc_sign k = true.
Proof. intro k. unfold expanded. rewrite filter_In, in_strings. split; [ intros ((L & B) & E) | intros (L & B & E) ]; repeat split; assumption. Qed.
Lemma secret_bytes : forall k, le_val (le_bytes 57 (secret_scalar k)) = secret_scalar k.
Proof.
  intro k. rewrite le_val_le_bytes. apply Z.mod_small. unfold secret_scalar. pose proof (Z.mod_pos_bound (le_val (firstn 56 k)) (2 ^ 447) eq_refl) as M.
  set (v := le_val (firstn 56 k) mod 2 ^ 447) in *. pose proof (Z.div_pos v 4 (proj1 M) eq_refl) as D0. pose proof (Z.mul_div_le v 4 eq_refl) as D1.
  assert (0 < 2 ^ 447) by reflexivity. assert (2 ^ 447 + 2 ^ 447 < 256 ^ Z.of_nat 57) by reflexivity. lia.
Qed.
Lemma shows_iff : forall A x, shows A x = true <-> emul (read_from x) ebase = A.
Proof.
  intros A x. unfold shows. cbv zeta. destruct (emul (read_from x) ebase) as (u, v). destruct A as (u', v'). cbn [fst snd]. rewrite andb_true_iff, !Z.eqb_eq. split.
  - intros (E1 & E2). rewrite (F_eq _ _ E1), (F_eq _ _ E2). reflexivity.
  - intro E. injection E as -> ->. split; reflexivity.
Qed.
(* an input of the nonce shows the secret scalar *)
Lemma nonce_shows : forall k x, firstn 67 x = rfc_dom ++ le_bytes 57 (secret_scalar k) -> shows (emul (secret_scalar k) ebase) x = true.
Proof.
  intros k x E. apply (proj2 (shows_iff _ _)). unfold read_from. rewrite E. change (skipn 10 (rfc_dom ++ le_bytes 57 (secret_scalar k))) with (le_bytes 57 (secret_scalar k)).
  rewrite secret_bytes. apply emul_mod; first [ exact ebase_on | exact order_ok | discriminate ].
Qed.

Section Total.
Variable n : nat.
Variable next : list (list Z) -> query.
Variable finish : list (list Z) -> list Z * list Z.
Variable exact : list Z -> list Z -> list Z -> list Z -> bool.
Variable key : list Z.
Hypothesis KI : In key expanded.
Local Notation s := (secret_scalar key).
Local Notation A := (emul (secret_scalar key) ebase).
Local Notation fin1 := (fun st c => final finish exact (eencode A) A st c).
Local Notation fin2 := (fun st => existsb (shows A) (final_input finish A st :: map fst (known st))).
Definition fin12 (st : view) (c : list Z) : bool := final finish exact (eencode A) A st c || existsb (shows A) (final_input finish A st :: map fst (known st)).
Lemma real_own : forall coins, In coins (vectors (list_prod (strings 114) (strings 114)) (S n)) ->
  b2z (real_expanded n next finish exact key coins) <= b2z (fin12 (fold_left (own_step s next) (firstn n coins) (View [] [] [])) (fst (nth n coins ([], [])))).
Proof.
  intros coins CI. destruct (proj1 (expanded_in key) KI) as (KL & KB & KS). set (st := fold_left (own_step s next) (firstn n coins) (View [] [] [])). unfold fin12.
  destruct (existsb (shows A) (final_input finish A st :: map fst (known st))) eqn:B; [ rewrite orb_true_r; destruct (real_expanded _ _ _ _ _ _); discriminate | ]. rewrite orb_false_r.
  apply Z.eq_le_incl. f_equal.
  assert (P : forall x, In x (final_input finish A st :: map fst (known st)) -> other key x).
  { intros x I E. assert (X : existsb (shows A) (final_input finish A st :: map fst (known st)) = true); [ | congruence ]. apply existsb_exists. exists x. split; [ exact I | ]. apply nonce_shows. exact E. }
  assert (X0 : is_xof (table_xof [])) by (apply table_bytes; intros x a []).
  unfold real_expanded. rewrite (derive_public_ok _ X0 key KL KB), KS. unfold key_scalar. rewrite KS.
  assert (CC : forall c, In c coins -> In (fst c) (strings 114) /\ In (snd c) (strings 114)).
  { intros (c, r) I. apply (vectors_in _ _ coins _ CI) in I. apply in_prod_iff in I. exact I. }
  pose proof (vectors_length _ _ _ CI) as LC.
  assert (REL : matched key (fold_left (real_step next key) (firstn n coins) (View [] [] [])) st).
  { apply (fold_matched key next KL KB KS).
    + unfold matched. cbn [answers signed]. split; [ reflexivity | ]. split; [ reflexivity | ]. change (known (View [] [] [])) with (@nil (list Z * list Z)).
      split; [ reflexivity | ]. split; [ reflexivity | ]. split; intros x a [].
    + intros c I. apply CC. exact (firstn_in _ _ _ _ I).
    + intros x a I. apply P. right. apply (in_map fst _ (x, a)). exact I. }
  assert (LI : In (fst (nth n coins ([], []))) (strings 114)).
  { assert (LL : (n < length coins)%nat) by (rewrite LC; apply Nat.lt_succ_diag_r). exact (proj1 (CC _ (nth_In coins ([], []) LL))). }
  exact (final_matched key finish exact _ _ _ REL LI (P _ (or_introl eq_refl))).
Qed.
Theorem expanded_simulation : let N := 256 ^ 114 in let L := N / q448 + 1 in let coins := vectors (list_prod (strings 114) (below q448)) (S n) in
  tally (real_expanded n next finish exact key) (vectors (list_prod (strings 114) (strings 114)) (S n)) <=
  L ^ Z.of_nat (S n) * (tally (sim_wins n next finish exact A) coins + tally (sim_reads n next finish A) coins) +
  Z.of_nat n * Z.of_nat n * (L * N * (N * q448 * L) ^ Z.of_nat n).
Proof.
  intros N L coins. change (256 ^ 114 / q448) with share in L. rewrite !tally_b2z.
  eapply Z.le_trans; [ exact (lsum_le _ _ _ real_own) | ].
  assert (E1 : lsum (fun c => b2z (fin12 (fold_left (own_step s next) (firstn n c) (View [] [] [])) (fst (nth n c ([], []))))) (vectors (list_prod (strings 114) (strings 114)) (S n)) =
    value (own_step s next) (fun st coin => fin12 st (fst coin)) (list_prod (strings 114) (strings 114)) n (View [] [] [])).
  { unfold value. apply lsum_ext. intros c I. rewrite (play_fold _ _ _ _ ([], []) n _ c (vectors_length _ _ _ I)). reflexivity. }
  assert (S0 : 0 <= share) by (vm_compute; discriminate). rewrite E1. eapply Z.le_trans; [ exact (hop2 s next fin12 _ _ eq_refl eq_refl N q448 L eq_refl eq_refl eq_refl n (View [] [] [])) | ].
  assert (E2 : value (sim_step next A) (fun st coin => fin12 st (fst coin)) (list_prod (strings 114) (below q448)) n (View [] [] []) <=
    lsum (fun c => b2z (sim_wins n next finish exact A c)) coins + lsum (fun c => b2z (sim_reads n next finish A c)) coins).
  { unfold value. rewrite <- lsum_add. apply lsum_le. intros c I. rewrite (play_fold _ _ _ _ ([], 0) n _ c (vectors_length _ _ _ I)).
    unfold sim_wins, sim_reads, sim_asked, sim_end, fin12. set (st := fold_left (sim_step next A) (firstn n c) (View [] [] [])).
    destruct (final finish exact (eencode A) A st (fst (nth n c ([], 0)))); destruct (existsb (shows A) (final_input finish A st :: map fst (known st))); discriminate. }
  apply Z.add_le_mono_r. apply Z.mul_le_mono_nonneg_l; [ | exact E2 ]. apply Z.pow_nonneg. change L with (share + 1). revert S0. generalize share. intros z S0. lia.
Qed.
End Total.
Theorem expanded_forking : forall s n next finish exact,
  (forall a sig m, In a (strings 114) -> exact (eencode (emul s ebase)) a sig m = true -> bytes sig /\ (exists R, denotes (firstn 57 sig) R) /\
    ~ false_positive (table_xof [(forged_input (emul s ebase) (sig, m), a)]) (eencode (emul s ebase)) sig m) ->
  let coins := vectors (list_prod (strings 114) (below q448)) (S n) in let wins := tally (sim_wins n next finish exact (emul s ebase)) coins in
  wins * wins <= Z.of_nat (S n) * (tally (fun p => sim_reveals n next finish (emul s ebase) (fst p) (snd p)) (list_prod coins coins) +
    wins * ((256 ^ 114 * q448) ^ Z.of_nat n * (q448 * (256 ^ 114 / q448 + 1)))).
Proof. intros s n next finish exact HE. exact (sim_bound (emul s ebase) (emul_on _ _ ebase_on) (subgroup_base _) n next finish exact HE). Qed.
Theorem expanded_secret : forall s n next finish h, sim_reads n next finish (emul s ebase) h = true -> sim_guess n next finish (emul s ebase) h = s mod q448.
Proof.
  intros s n next finish h E. unfold sim_reads in E. unfold sim_guess. apply existsb_exists in E as (x & I & E).
  destruct (find (shows (emul s ebase)) (sim_asked n next finish (emul s ebase) h)) as [ y | ] eqn:F.
  - apply find_some in F as (_ & F). apply (proj1 (shows_iff _ _)) in F. assert (R : 0 <= read_from y < q448) by (apply Z.mod_pos_bound; reflexivity).
    rewrite <- (Z.mod_small _ _ R). apply base_inj. exact F.
  - pose proof (find_none _ _ F x I) as K. congruence.
Qed.
