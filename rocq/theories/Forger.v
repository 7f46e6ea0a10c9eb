(* Rewinding a forger: two accepted outputs for one input of the hash and two answers. *)
From Coq Require Import ZArith List Bool Lia Zpow_facts Znumtheory.
From Verif Require Import Base SpecField SpecBytes SpecScalar SpecCurve SpecDecode SpecEd448 SpecVerify SpecInternal SpecUniform SpecProtocol SpecQueries SpecForger.
From Verif Require Import Bytes ScalarModel ScalarProofs Errors ExtendedPoint Eddsa Goldilocks.
From Verif Require Samples.
From Verif Require Import NumTheory Field Edwards Isogeny CombMul PrimeQ Decode Ed448 Order Equation Facts Sound Kernel Uniform Count Bind Protocol Structure Alias Api Interop SmallKeys Queries Transcripts Internal Unbias Forking.
Import ListNotations.
Open Scope Z_scope.

(* tables *)
Lemma recall_app : forall x T T', recall x (T ++ T') = match recall x T with Some a => Some a | None => recall x T' end.
Proof.
  intros x T T'. induction T as [ | (y, a) T IH ]; [ reflexivity | ]. cbn [app recall]. destruct (same_string x y); [ reflexivity | exact IH ].
Qed.
Lemma table_is_xof : forall T, (forall x a, In (x, a) T -> bytes a) -> is_xof (table_xof T).
Proof.
  intros T B x. unfold table_xof.
  assert (BV : bytes (match recall x T with Some a => a | None => [] end)).
  { induction T as [ | (y, a) T IH ]; [ constructor | ]. cbn [recall]. destruct (same_string x y); [ exact (B y a (or_introl eq_refl)) | ].
    apply IH. intros z b I. exact (B z b (or_intror I)). }
  set (v := match recall x T with Some a => a | None => [] end) in *. clearbody v. split.
  - intro n. split; [ rewrite firstn_length, app_length, repeat_length; lia | ].
    assert (BB : bytes (v ++ repeat 0 n)) by (apply bytes_app; split; [ exact BV | apply Samples.bytes_repeat0 ]).
    rewrite <- (firstn_skipn n (v ++ repeat 0 n)) in BB. apply bytes_app in BB. exact (proj1 BB).
  - intros n n' L. apply repeat_app_firstn. exact L.
Qed.
Lemma table_at : forall T x a n, recall x T = Some a -> length a = n -> table_xof T x n = a.
Proof.
  intros T x a n E L. unfold table_xof. rewrite E, firstn_app, L, Nat.sub_diag, firstn_O, app_nil_r. apply firstn_all2. lia.
Qed.
Lemma position_app : forall x T T', position x (T ++ T') = match position x T with Some j => Some j | None => option_map (fun j => (length T + j)%nat) (position x T') end.
Proof.
  intros x T T'. induction T as [ | (y, a) T IH ]; [ cbn [app length position]; destruct (position x T'); reflexivity | ]. cbn [app position length].
  destruct (same_string x y); [ reflexivity | ]. rewrite IH. destruct (position x T); [ reflexivity | ]. destruct (position x T'); reflexivity.
Qed.
Lemma position_some : forall x T j, position x T = Some j -> (j < length T)%nat /\ nth_error (map fst T) j = Some x /\ recall x (firstn j T) = None /\
  recall x T = nth_error (map snd T) j.
Proof.
  intros x T. induction T as [ | (y, a) T IH ]; intros j E; [ discriminate E | ]. cbn [position] in E. destruct (same_string x y) eqn:S.
  - injection E as <-. cbn [length firstn map nth_error recall fst snd]. rewrite S. apply same_string_eq in S. subst y. split; [ lia | ]. split; [ reflexivity | ]. split; reflexivity.
  - destruct (position x T) as [ i | ]; [ | discriminate E ]. injection E as <-. destruct (IH i eq_refl) as (L & N & F & R).
    cbn [length firstn map nth_error recall fst snd]. rewrite S. split; [ lia | ]. split; [ exact N | ]. split; [ exact F | exact R ].
Qed.
Lemma position_in : forall x T, In x (map fst T) -> exists j, position x T = Some j.
Proof.
  intros x T. induction T as [ | (y, a) T IH ]; intros I; [ destruct I | ]. cbn [position]. destruct (same_string x y) eqn:S; [ exists O; reflexivity | ].
  destruct I as [ E | I ]; [ cbn [fst] in E; subst y; rewrite (proj2 (same_string_eq x x) eq_refl) in S; discriminate S | ]. destruct (IH I) as (j & ->). exists (Datatypes.S j). reflexivity.
Qed.

(* one question *)
Definition step (next : strategy) (T : list (list Z * list Z)) (c : list Z) : list (list Z * list Z) :=
  T ++ [(next (map snd T), match recall (next (map snd T)) T with Some a => a | None => c end)].
Lemma ask_fold : forall next coins T, ask next coins T = fold_left (step next) coins T.
Proof. intros next. induction coins as [ | c coins IH ]; intro T; [ reflexivity | ]. cbn [ask fold_left]. apply IH. Qed.
Lemma ask_app : forall next u v T, ask next (u ++ v) T = ask next v (ask next u T).
Proof. intros next u v T. rewrite !ask_fold. apply fold_left_app. Qed.
Lemma ask_ext : forall next coins T, exists U, ask next coins T = T ++ U /\ length U = length coins.
Proof.
  intros next. induction coins as [ | c coins IH ]; intro T; [ exists []; rewrite app_nil_r; split; reflexivity | ]. cbn [ask].
  destruct (IH (T ++ [(next (map snd T), match recall (next (map snd T)) T with Some a => a | None => c end)])) as (U & E & L).
  eexists. rewrite E, <- app_assoc. split; [ reflexivity | ]. rewrite app_length, L. reflexivity.
Qed.
Lemma ask_length : forall next coins, length (ask next coins []) = length coins.
Proof. intros next coins. destruct (ask_ext next coins []) as (U & E & L). rewrite E. exact L. Qed.
Lemma ask_answers : forall next coins T, (forall x a, In (x, a) T -> In a (strings 114)) -> (forall c, In c coins -> In c (strings 114)) ->
  forall x a, In (x, a) (ask next coins T) -> In a (strings 114).
Proof.
  intros next. induction coins as [ | c coins IH ]; intros T HT HC x a I; [ exact (HT x a I) | ]. cbn [ask] in I. revert I. apply IH; [ | intros d D; exact (HC d (or_intror D)) ].
  intros y b J. apply in_app_or in J as [ J | [ J | [] ] ]; [ exact (HT y b J) | ]. injection J as <- <-.
  destruct (recall (next (map snd T)) T) as [ b | ] eqn:E; [ | exact (HC c (or_introl eq_refl)) ]. clear - E HT. set (x := next (map snd T)) in E. clearbody x. revert HT E. induction T as [ | (y, a) T IH ]; intros HT E; [ discriminate E | ].
  cbn [recall] in E. destruct (same_string x y); [ injection E as <-; exact (HT y a (or_introl eq_refl)) | ]. apply IH; [ | exact E ]. intros z d I. exact (HT z d (or_intror I)).
Qed.
(* the table before and at a position *)
Lemma ask_split : forall next coins j c, nth_error coins j = Some c -> forall X, nth_error (map fst (ask next coins [])) j = Some X -> recall X (firstn j (ask next coins [])) = None ->
  X = next (map snd (ask next (firstn j coins) [])) /\ nth_error (map snd (ask next coins [])) j = Some c.
Proof.
  intros next coins j c N X NX F. apply nth_error_split in N as (u & v & -> & L). rewrite ask_app in *. subst j.
  rewrite firstn_app, Nat.sub_diag, firstn_O, app_nil_r, firstn_all. pose proof (ask_length next u) as LU. set (T := ask next u []) in *. cbn [ask] in *.
  set (x := next (map snd T)) in *. set (a := match recall x T with Some a => a | None => c end) in *.
  destruct (ask_ext next v (T ++ [(x, a)])) as (W & E & _). rewrite E in *. rewrite <- app_assoc in *. cbn [app] in *.
  rewrite map_app in NX. rewrite nth_error_app2 in NX by (rewrite map_length; lia). rewrite map_length, LU, Nat.sub_diag in NX. cbn [map nth_error fst] in NX. apply some_inj in NX.
  rewrite <- LU in F. rewrite firstn_app, Nat.sub_diag, firstn_O, app_nil_r, firstn_all in F. split; [ symmetry; exact NX | ].
  rewrite map_app, nth_error_app2 by (rewrite map_length; lia). rewrite map_length, LU, Nat.sub_diag. cbn [map nth_error snd]. unfold a. rewrite NX, F. reflexivity.
Qed.

(* division modulo q *)
Lemma qdiv_ok : forall a b x, b mod q448 <> 0 -> (b * x) mod q448 = a mod q448 -> 0 <= x < q448 -> qdiv a b = x.
Proof.
  intros a b x N E R. unfold qdiv. rewrite Zpow_mod_correct by discriminate. rewrite Z.mul_mod_idemp_r by discriminate.
  set (c := b mod q448) in *. assert (F : c ^ (q448 - 1) mod q448 = 1).
  { apply fermat_units; [ exact q448_prime | ]. intro D. apply N. apply Z.mod_divide in D; [ | discriminate ]. unfold c in D. rewrite Z.mod_mod in D by discriminate. exact D. }
  rewrite <- Z.mul_mod_idemp_l, <- E by discriminate. rewrite Z.mul_mod_idemp_l by discriminate. rewrite <- (Z.mul_assoc b), <- (Z.mul_mod_idemp_l b) by discriminate. fold c.
  replace (c * (x * c ^ (q448 - 2))) with (c ^ (q448 - 1) * x).
  - rewrite <- Z.mul_mod_idemp_l, F, Z.mul_1_l by discriminate. apply Z.mod_small. exact R.
  - replace (q448 - 1) with (Z.succ (q448 - 2)) by ring. rewrite Z.pow_succ_r by (vm_compute; discriminate). generalize (c ^ (q448 - 2)). intro w. ring.
Qed.

Lemma tally_none : forall (T : Type) (f : T -> bool) l, (forall x, f x = false) -> tally f l = 0.
Proof. intros T f l H. induction l as [ | x t IH ]; [ reflexivity | ]. cbn [tally]. rewrite H, IH. reflexivity. Qed.
Lemma share_nonneg : 0 <= share + 1.
Proof. assert (0 <= share) by (apply Z.div_pos; [ apply Z.pow_nonneg; discriminate | reflexivity ]). lia. Qed.
Lemma strings_total : Z.of_nat (length (strings 114)) = 256 ^ 114.
Proof.
  transitivity (tally (fun _ => true) (strings 114)); [ | exact (count_all 114) ]. rewrite lsum_tally, lsum_const, Z.mul_1_r. reflexivity.
Qed.

Section Forger.
Variable pub : list Z.
Variable A : ept.
Hypothesis Bpub : bytes pub.
Hypothesis Dpub : denotes pub A.
Variable n : nat.
Variable next : strategy.
Variable finish : list (list Z) -> list Z * list Z.
Local Notation run := (SpecForger.run A n next finish).
Local Notation output := (SpecForger.output A n next finish).
Local Notation fork_at := (SpecForger.fork_at A n next finish).
Local Notation coins_of := (vectors (strings 114)).
(* a test of runs which end with an accepted signature, not by the comparison which ignores the top limb *)
Definition honest_win (h : list (list Z)) : Prop :=
  bytes (fst (output h)) /\ (exists R, denotes (firstn 57 (fst (output h))) R) /\
  ed448_verify (table_xof (run h)) pub (fst (output h)) (snd (output h)) = Some (Ok true) /\
  ~ false_positive (table_xof (run h)) pub (fst (output h)) (snd (output h)).
Lemma run_answers : forall h, In h (coins_of (S n)) -> forall x a, In (x, a) (run h) -> In a (strings 114).
Proof. intros h H. unfold SpecForger.run. apply ask_answers; [ intros x a [] | intros c I; exact (vectors_in (strings 114) (S n) h c H I) ]. Qed.
Lemma run_xof : forall h, In h (coins_of (S n)) -> is_xof (table_xof (run h)).
Proof. intros h H. apply table_is_xof. intros x a I. pose proof (run_answers h H x a I) as K. apply in_strings in K. exact (proj2 K). Qed.
(* the verifier's question is one of the questions *)
Lemma last_question : forall h, length h = S n -> exists j, fork_at h = Some j.
Proof.
  intros h L. unfold SpecForger.fork_at. apply position_in. unfold SpecForger.output.
  destruct (exists_last (l := h)) as (u & c & ->); [ intros ->; discriminate L | ]. rewrite app_length in L. cbn [length] in L.
  unfold SpecForger.run. rewrite ask_app. pose proof (ask_length (questions A n next finish) u) as LU. set (T := ask (questions A n next finish) u []) in *. cbn [ask].
  rewrite !map_app. apply in_or_app. right. cbn [map fst]. left. unfold questions at 1. rewrite map_length.
  replace (Nat.ltb (length T) n) with false by (symmetry; apply Nat.ltb_ge; lia). f_equal. f_equal. rewrite !map_length || idtac.
  rewrite firstn_app, map_length. replace (n - length T)%nat with 0%nat by lia. rewrite firstn_O, app_nil_r. reflexivity.
Qed.
Lemma input_inj : forall o o' : list Z * list Z, (57 <= length (fst o))%nat -> (57 <= length (fst o'))%nat -> forged_input A o = forged_input A o' ->
  firstn 57 (fst o) = firstn 57 (fst o') /\ snd o = snd o'.
Proof.
  intros (s, m) (s', m') L L' E. cbn [fst snd] in *. unfold forged_input in E. cbn [fst snd] in E. apply app_inv_head in E.
  apply app_len_inj in E as (E1 & E2); [ | rewrite !firstn_length; lia ]. apply app_inv_head in E2. split; assumption.
Qed.
Lemma win_length : forall h, In h (coins_of (S n)) -> honest_win h -> (57 <= length (fst (output h)))%nat.
Proof.
  intros h H (B & _ & V & _).
  destruct (verify_errors (table_xof (run h)) (run_xof h H) pub _ (snd (output h)) Bpub B) as (_ & _ & _ & _ & _ & (K & _) & _).
  destruct K as (_ & _ & L & _); [ exists true; exact V | lia ].
Qed.
Lemma fork_in : forall h h' j, In h (coins_of (S n)) -> In h' (coins_of (S n)) -> (j < S n)%nat -> In (firstn j h ++ skipn j h') (coins_of (S n)).
Proof.
  intros h h' j H H' L. replace (S n) with (j + (S n - j))%nat by lia. apply vectors_join.
  - apply (vectors_app (strings 114) j (S n - j)). replace (j + (S n - j))%nat with (S n) by lia. exact H.
  - apply (vectors_app (strings 114) j (S n - j)). replace (j + (S n - j))%nat with (S n) by lia. exact H'.
Qed.
(* the two runs *)
Lemma fork_reveals : forall h h' j, In h (coins_of (S n)) -> In h' (coins_of (S n)) -> honest_win h -> honest_win (firstn j h ++ skipn j h') ->
  fork_at h = Some j -> fork_at (firstn j h ++ skipn j h') = Some j -> le_val (nth j h []) mod q448 <> le_val (nth j h' []) mod q448 ->
  reveals A n next finish h h' = true.
Proof.
  intros h h' j H H' W W2 J J2 NE. pose proof (vectors_length _ _ _ H) as LH. pose proof (vectors_length _ _ _ H') as LH'.
  set (g := firstn j h ++ skipn j h') in *.
  destruct (position_some _ _ _ J) as (Lj & Nj & Fj & Rj). unfold SpecForger.run in Lj. rewrite ask_length in Lj.
  assert (G : In g (coins_of (S n))) by (apply fork_in; try assumption; lia).
  destruct (position_some _ _ _ J2) as (Lj2 & Nj2 & Fj2 & Rj2).
  assert (C1 : nth_error h j = Some (nth j h [])) by (apply nth_error_nth'; lia).
  assert (C2 : nth_error g j = Some (nth j h' [])).
  { unfold g. rewrite nth_error_app2 by (rewrite firstn_length; lia). rewrite firstn_length. replace (j - Nat.min j (length h))%nat with O by lia.
    rewrite <- (firstn_skipn j h') at 2. rewrite app_nth2 by (rewrite firstn_length; lia). rewrite firstn_length. replace (j - Nat.min j (length h'))%nat with O by lia.
    destruct (skipn j h') as [ | d t ] eqn:SK; [ | reflexivity ]. apply (f_equal (@length _)) in SK. rewrite skipn_length in SK. cbn [length] in SK. lia. }
  destruct (ask_split _ h j _ C1 _ Nj Fj) as (X1 & A1). destruct (ask_split _ g j _ C2 _ Nj2 Fj2) as (X2 & A2).
  assert (XX : forged_input A (output h) = forged_input A (output g)).
  { rewrite X1, X2. do 3 f_equal. unfold g. rewrite firstn_app, firstn_firstn, Nat.min_id, firstn_length. replace (j - Nat.min j (length h))%nat with O by lia.
    rewrite firstn_O, app_nil_r. reflexivity. }
  assert (M1 : length (nth j h []) = 114%nat /\ length (nth j h' []) = 114%nat).
  { split; apply (proj1 (in_strings 114 _)); [ apply (vectors_in _ _ h _ H) | apply (vectors_in _ _ h' _ H') ]; apply nth_In; lia. }
  assert (K1 : table_xof (run h) (forged_input A (output h)) 114 = nth j h []).
  { apply table_at; [ rewrite Rj; exact A1 | exact (proj1 M1) ]. }
  assert (K2 : table_xof (run g) (forged_input A (output g)) 114 = nth j h' []).
  { apply table_at; [ rewrite Rj2; exact A2 | exact (proj2 M1) ]. }
  destruct (input_inj _ _ (win_length h H W) (win_length g G W2) XX) as (ER & EM).
  destruct W as (B1 & (R & NR) & V1 & F1). destruct W2 as (B2 & _ & V2 & F2).
  assert (EC1 : rfc_challenge (table_xof (run h)) (firstn 57 (fst (output h))) (eencode (subgroup_part A)) (snd (output h)) = le_val (nth j h [])).
  { rewrite <- K1. reflexivity. }
  assert (EC2 : rfc_challenge (table_xof (run g)) (firstn 57 (fst (output h))) (eencode (subgroup_part A)) (snd (output g)) = le_val (nth j h' [])).
  { rewrite ER, <- K2. reflexivity. }
  assert (ND : rfc_challenge (table_xof (run h)) (firstn 57 (fst (output h))) (eencode (subgroup_part A)) (snd (output h)) mod q448 <>
    rfc_challenge (table_xof (run g)) (firstn 57 (fst (output h))) (eencode (subgroup_part A)) (snd (output g)) mod q448) by (rewrite EC1, EC2; exact NE).
  destruct (extraction _ _ (run_xof h H) (run_xof g G) pub _ _ _ _ A R Bpub B1 B2 Dpub NR ER V1 V2 ND) as [ (x & RX & EX & PX) | [ K | K ] ]; [ | destruct (F1 K) | destruct (F2 K) ].
  rewrite EC1, EC2 in EX.
  assert (XE : extracted A n next finish h h' = x).
  { unfold extracted, second. rewrite J. fold g. unfold challenge_of. rewrite K1, K2. apply qdiv_ok; [ | exact EX | exact RX ].
    intro Z0. apply NE. apply Z.mod_divide in Z0; [ | discriminate ]. destruct Z0 as (c & Hc).
    replace (le_val (nth j h [])) with (le_val (nth j h' []) + c * q448) by lia. apply Z.mod_add. discriminate. }
  unfold reveals. rewrite XE, <- PX, !Z.eqb_refl. reflexivity.
Qed.
(* few strings have a given challenge *)
Lemma few_challenges : forall s, lsum (fun d => if le_val d mod q448 =? s then 1 else 0) (strings 114) <= share + 1.
Proof.
  intro s. rewrite <- lsum_tally.
  assert (E : tally (fun d => le_val d mod q448 =? s) (strings 114) = tally (scalar_is (Z.eqb s)) (strings 114)).
  { rewrite scalar_strings, tally_strings. apply zsum_ext. intros z Hz. rewrite le_val_le_bytes. rewrite (Z.mod_small z) by exact Hz. rewrite Z.eqb_sym. reflexivity. }
  destruct (Z_le_gt_dec 0 s) as [ P | P ]; [ destruct (Z_lt_ge_dec s q448) as [ Q | Q ] | ].
  - rewrite E, (hits_share s (conj P Q)). destruct (s <? _); lia.
  - rewrite (tally_none _ _ (strings 114)); [ apply share_nonneg | ]. intros d. apply Z.eqb_neq. pose proof (Z.mod_pos_bound (le_val d) q448 ltac:(reflexivity)). lia.
  - rewrite (tally_none _ _ (strings 114)); [ apply share_nonneg | ]. intros d. apply Z.eqb_neq. pose proof (Z.mod_pos_bound (le_val d) q448 ltac:(reflexivity)). lia.
Qed.
Theorem bound : forall good : list (list Z) -> bool, (forall h, In h (coins_of (S n)) -> good h = true -> honest_win h) ->
  let wins := tally good (coins_of (S n)) in
  wins * wins <= Z.of_nat (S n) * (tally (fun p => reveals A n next finish (fst p) (snd p)) (list_prod (coins_of (S n)) (coins_of (S n))) +
    wins * ((256 ^ 114) ^ Z.of_nat n * (256 ^ 114 / q448 + 1))).
Proof.
  intros good HG wins. set (W := fun h => if good h then fork_at h else None).
  assert (EW : wins = Forking.wins (strings 114) (S n) W).
  { unfold wins, Forking.wins. rewrite lsum_tally. apply lsum_ext. intros h H. unfold W. destruct (good h); [ | reflexivity ].
    destruct (last_question h (vectors_length _ _ _ H)) as (j & ->). reflexivity. }
  rewrite EW. fold share. replace (Z.of_nat n) with (Z.of_nat (S n) - 1) by lia. rewrite <- strings_total.
  apply (forking (strings 114) (S n) W) with (color := fun d => le_val d mod q448) (d0 := []).
  - intros h j H E. unfold W in E. destruct (good h); [ | discriminate E ]. apply position_some in E as (L & _). unfold SpecForger.run in L. rewrite ask_length, (vectors_length _ _ _ H) in L. exact L.
  - exact few_challenges.
  - intros h h' j H H' E E' NE. unfold W, fork in E, E'. destruct (good h) eqn:G1; [ | discriminate E ]. destruct (good (firstn j h ++ skipn j h')) eqn:G2; [ | discriminate E' ].
    apply (fork_reveals h h' j H H' (HG h H G1)); [ | exact E | exact E' | exact NE ]. apply HG; [ | exact G2 ].
    assert (Lj : (j < S n)%nat). { apply position_some in E as (L & _). unfold SpecForger.run in L. rewrite ask_length, (vectors_length _ _ _ H) in L. exact L. }
    exact (fork_in h h' j H H' Lj).
Qed.
End Forger.

(* the equation holds: the comparison is not fooled *)
Lemma equation_exact : forall xof, is_xof xof -> forall pub sig message A R, bytes pub -> bytes sig -> (114 <= length sig)%nat -> ~ zero_input pub sig ->
  decodable pub -> decodable (firstn 57 sig) -> denotes pub A -> denotes (firstn 57 sig) R ->
  rfc_equation (le_val (firstn 57 (skipn 57 sig))) R (rfc_challenge xof (firstn 57 sig) (eencode (subgroup_part A)) message) A ->
  ~ false_positive xof pub sig message.
Proof.
  intros xof X pub sig message A R B1 B2 L NZ D1 D2 N1 N2 Q (r4 & pk & j & C & J & E).
  destruct (verify_exact xof X pub sig message A R B1 B2 L NZ D1 D2 N1 N2) as (r4' & pk' & P1 & P2 & C' & _ & _ & _ & _ & (_ & K) & _).
  destruct (compared_fun xof pub sig message _ _ _ _ C C') as (<- & <-). rewrite (K Q) in E. change (fval fzero) with 0 in E. lia.
Qed.
(* what is revealed for a derived public key is its secret scalar *)
Lemma reveals_point : forall A n next finish h h', reveals A n next finish h h' = true -> emul (extracted A n next finish h h') ebase = subgroup_part A.
Proof.
  intros A n next finish h h' E. unfold reveals in E. set (x := extracted A n next finish h h') in *. clearbody x. generalize dependent (emul x ebase). generalize (subgroup_part A).
  intros (u, v) (u', v') E. cbn [fst snd] in E. apply andb_prop in E as (E1 & E2). apply Z.eqb_eq in E1, E2. rewrite (F_eq _ _ E1), (F_eq _ _ E2). reflexivity.
Qed.
Theorem revealed_secret : forall xof, is_xof xof -> forall key pub A n next finish h h', length key = 57%nat -> bytes key -> ed448_derive_public xof key = Some pub -> rfc_decodes pub A ->
  reveals A n next finish h h' = true -> extracted A n next finish h h' = key_scalar xof key mod q448.
Proof.
  intros xof X key pub A n next finish h h' L B D RD E. apply (extraction_key xof X key pub _ L B D) with (A := A).
  - unfold extracted, qdiv. apply Z.mod_pos_bound. reflexivity.
  - exact RD.
  - symmetry. apply reveals_point. exact E.
Qed.
