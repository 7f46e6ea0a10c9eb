(* One signature for two pairs of a key and a message: two answers of the hash satisfy a linear equation. *)
From Coq Require Import ZArith List Bool Lia Znumtheory.
From Verif Require Import Base SpecField SpecBytes SpecScalar SpecCurve SpecDecode SpecEd448 SpecVerify SpecInternal SpecUniform SpecProtocol SpecQueries SpecForger SpecBinding.
From Verif Require Import Bytes ScalarModel ScalarProofs Errors ExtendedPoint Eddsa Goldilocks.
From Verif Require Import NumTheory Field Edwards Isogeny CombMul PrimeQ Decode Ed448 Order Equation Facts Sound Kernel Uniform Count Bind Protocol Structure Alias Api Interop SmallKeys Queries Transcripts Internal Unbias Forking Forger.
Import ListNotations.
Open Scope Z_scope.
Local Opaque eencode emul eadd ed448_verify q448 le_bytes le_val decodable strings subgroup_part below.

Lemma same_self : forall x, same_string x x = true.
Proof. intro x. apply same_string_eq. reflexivity. Qed.
(* the discrete logarithm of the key which stands in an input *)
Definition log_of (x : list Z) : Z :=
  match find (fun s => same_string (eencode (emul s ebase)) (firstn 57 (skipn 67 x))) (below q448) with Some s => s | None => 0 end.
Lemma in_below : forall s, In s (below q448) <-> 0 <= s < q448.
Proof.
  Local Transparent below.
  intro s. unfold below. rewrite in_map_iff. split.
  - intros (k & <- & I). apply in_seq in I. lia.
  - intro R. exists (Z.to_nat s). split; [ apply Z2Nat.id; lia | ]. apply in_seq. lia.
  Local Opaque below.
Qed.
Lemma log_of_input : forall R m s, length R = 57%nat -> 0 <= s < q448 -> log_of (rfc_dom ++ R ++ eencode (emul s ebase) ++ m) = s.
Proof.
  intros R m s LR RS. unfold log_of.
  assert (E : firstn 57 (skipn 67 (rfc_dom ++ R ++ eencode (emul s ebase) ++ m)) = eencode (emul s ebase)).
  { rewrite app_assoc. rewrite skipn_app. replace (skipn 67 (rfc_dom ++ R)) with (@nil Z) by (symmetry; apply skipn_all2; rewrite app_length, LR; vm_compute; lia).
    replace (67 - length (rfc_dom ++ R))%nat with 0%nat by (rewrite app_length, LR; reflexivity). cbn [app skipn].
    rewrite firstn_app, eencode_len. cbn [Nat.sub]. rewrite firstn_O, app_nil_r. apply firstn_all2. rewrite eencode_len. apply Nat.le_refl. }
  rewrite E. destruct (find _ (below q448)) as [ t | ] eqn:F.
  - apply find_some in F as (I & F). apply in_below in I. apply same_string_eq in F.
    apply eencode_inj in F; [ | apply emul_on; exact ebase_on | apply emul_on; exact ebase_on ]. apply base_inj in F. rewrite !Z.mod_small in F by assumption. exact F.
  - pose proof (find_none _ _ F s (proj2 (in_below s) RS)) as K. cbv beta in K. rewrite same_self in K. discriminate K.
Qed.

(* the answer c to the question x is bad: zero modulo q, or in a linear relation with an earlier answer *)
Definition related (x : list Z) (c : list Z) (p : list Z * list Z) : bool :=
  negb (log_of x =? 0) && ((log_of (fst p) * le_val (snd p)) mod q448 =? (log_of x * le_val c) mod q448).
Definition bad (T : list (list Z * list Z)) (x c : list Z) : bool := (le_val c mod q448 =? 0) || existsb (related x c) T.

Lemma log_range : forall x, 0 <= log_of x < q448.
Proof.
  intro x. unfold log_of. destruct (find _ _) as [ s | ] eqn:F; [ apply find_some in F as (I & _); apply in_below; exact I | ]. Local Transparent q448. split; [ lia | reflexivity ]. Local Opaque q448.
Qed.
Lemma lsum_le1 : forall (D : Type) (f g : D -> bool) ds, (forall d, f d = true -> g d = true) -> lsum (fun d => if f d then 1 else 0) ds <= lsum (fun d => if g d then 1 else 0) ds.
Proof. intros D f g ds H. apply lsum_le. intros d _. pose proof (H d) as K. destruct (f d); [ rewrite (K eq_refl) | destruct (g d) ]; lia. Qed.
Lemma few_related : forall x p, lsum (fun c => if related x c p then 1 else 0) (strings 114) <= share + 1.
Proof.
  intros x (y, a). unfold related. cbn [fst snd]. destruct (log_of x =? 0) eqn:Z0.
  - cbn [negb andb]. rewrite lsum_const, Z.mul_0_r. apply share_nonneg.
  - cbn [negb andb]. apply Z.eqb_neq in Z0. pose proof (log_range x) as RX. set (v := log_of x) in *. set (w := log_of y * le_val a). clearbody v w.
    refine (Z.le_trans _ _ _ _ (few_challenges (qdiv w v))). apply (lsum_le1 (list Z) (fun c => w mod q448 =? (v * le_val c) mod q448) (fun c => le_val c mod q448 =? qdiv w v)). intros c E. apply Z.eqb_eq in E. apply Z.eqb_eq. symmetry. apply qdiv_ok.
    + rewrite Z.mod_small by lia. exact Z0.
    + rewrite Z.mul_mod_idemp_r by discriminate. symmetry. exact E.
    + apply Z.mod_pos_bound. reflexivity.
Qed.
Lemma few_bad : forall T x, lsum (fun c => if bad T x c then 1 else 0) (strings 114) <= (Z.of_nat (length T) + 1) * (share + 1).
Proof.
  intros T x. induction T as [ | p T IH ].
  - unfold bad. cbn [existsb length]. refine (Z.le_trans _ _ _ _ (Z.le_trans _ _ _ (few_challenges 0) _)); [ | change (Z.of_nat 0 + 1) with 1; lia ].
    apply (lsum_le1 (list Z) (fun c => (le_val c mod q448 =? 0) || false) (fun c => le_val c mod q448 =? 0)). intros c E. rewrite orb_false_r in E. exact E.
  - refine (Z.le_trans _ (lsum (fun c => if related x c p then 1 else 0) (strings 114) + lsum (fun c => if bad T x c then 1 else 0) (strings 114)) _ _ _).
    + rewrite <- lsum_add. apply lsum_le. intros c _. unfold bad. cbn [existsb]. destruct (le_val c mod q448 =? 0), (related x c p), (existsb (related x c) T); cbn [orb]; lia.
    + pose proof (few_related x p). cbn [length]. rewrite Nat2Z.inj_succ. lia.
Qed.

Lemma skipn_next : forall (l : list (list Z)) i x, nth_error l i = Some x -> skipn i l = x :: skipn (S i) l.
Proof. induction l as [ | y l IH ]; intros [ | i ] x E; try discriminate E; [ injection E as <-; reflexivity | exact (IH i x E) ]. Qed.

Section Binding.
Variable n : nat.
Variable next : strategy.
Variable finish : list (list Z) -> claim.
Local Notation coins_of := (vectors (strings 114)).
Local Notation qs := (claim_questions n next finish).
Local Notation run := (claim_run n next finish).
Local Notation claimed := (SpecBinding.claimed n next finish).
Definition bad_at (j : nat) (h : list (list Z)) : bool :=
  let T := ask qs (firstn j h) [] in bad T (qs (map snd T)) (nth j h []).
Lemma count_bad : forall j r, lsum (fun h => if bad_at j h then 1 else 0) (coins_of (j + S r)) <= (Z.of_nat j + 1) * (share + 1) * (256 ^ 114) ^ Z.of_nat (j + r).
Proof.
  intros j r. rewrite (vectors_split (strings 114)). rewrite Nat2Z.inj_add, Z.pow_add_r by lia.
  refine (Z.le_trans _ (lsum (fun _ => (Z.of_nat j + 1) * (share + 1) * (256 ^ 114) ^ Z.of_nat r) (coins_of j)) _ _ _).
  - apply lsum_le. intros u U. pose proof (vectors_length _ _ _ U) as LU. cbn [vectors]. rewrite lsum_flat.
    refine (Z.le_trans _ (lsum (fun c => (256 ^ 114) ^ Z.of_nat r * (if bad (ask qs u []) (qs (map snd (ask qs u []))) c then 1 else 0)) (strings 114)) _ _ _).
    + apply lsum_le. intros c _. rewrite lsum_map.
      rewrite (lsum_ext _ (fun _ => if bad (ask qs u []) (qs (map snd (ask qs u []))) c then 1 else 0)).
      * rewrite lsum_const, (vectors_count (strings 114)), strings_total. apply Z.le_refl.
      * intros v _. unfold bad_at. rewrite firstn_app, LU, Nat.sub_diag, firstn_O, app_nil_r, <- LU, firstn_all, nth_middle. reflexivity.
    + rewrite lsum_mul. pose proof (few_bad (ask qs u []) (qs (map snd (ask qs u [])))) as K. rewrite ask_length, LU in K.
      assert (P : 0 <= (256 ^ 114) ^ Z.of_nat r) by (apply Z.pow_nonneg, Z.pow_nonneg; discriminate). clear - K P.
      generalize dependent ((256 ^ 114) ^ Z.of_nat r). intros w P. rewrite (Z.mul_comm _ w). apply Z.mul_le_mono_nonneg_l; [ exact P | exact K ].
  - rewrite lsum_const, (vectors_count (strings 114)), strings_total. generalize ((256 ^ 114) ^ Z.of_nat j) ((256 ^ 114) ^ Z.of_nat r) (share + 1). intros. apply Z.eq_le_incl. ring.
Qed.

(* what is claimed is true, and not because of the comparison which ignores the top limb *)
Definition double_win (h : list (list Z)) : Prop :=
  let c := claimed h in let H := table_xof (run h) in
  bytes (key1 c) /\ bytes (key2 c) /\ bytes (signature c) /\ denotes (key1 c) (point1 c) /\ denotes (key2 c) (point2 c) /\
  (exists R, denotes (firstn 57 (signature c)) R) /\
  ~ (subgroup_part (point1 c) = ezero /\ subgroup_part (point2 c) = ezero) /\
  ~ (subgroup_part (point1 c) = subgroup_part (point2 c) /\ message1 c = message2 c) /\
  ed448_verify H (key1 c) (signature c) (message1 c) = Some (Ok true) /\ ~ false_positive H (key1 c) (signature c) (message1 c) /\
  ed448_verify H (key2 c) (signature c) (message2 c) = Some (Ok true) /\ ~ false_positive H (key2 c) (signature c) (message2 c).

Lemma run_answers : forall h, In h (coins_of (S (S n))) -> forall x a, In (x, a) (run h) -> In a (strings 114).
Proof. intros h H. unfold claim_run. apply ask_answers; [ intros x a [] | intros c I; exact (vectors_in (strings 114) (S (S n)) h c H I) ]. Qed.
Lemma run_xof : forall h, In h (coins_of (S (S n))) -> is_xof (table_xof (run h)).
Proof. intros h H. apply table_is_xof. intros x a I. pose proof (run_answers h H x a I) as K. apply in_strings in K. exact (proj2 K). Qed.
(* both inputs were asked *)
Lemma both_asked : forall h, length h = S (S n) -> In (input1 (claimed h)) (map fst (run h)) /\ In (input2 (claimed h)) (map fst (run h)).
Proof.
  intros h L. unfold SpecBinding.claimed.
  destruct (exists_last (l := h)) as (u & c & ->); [ intros ->; discriminate L | ]. rewrite app_length in L. cbn [length] in L.
  destruct (exists_last (l := u)) as (w & b & ->); [ intros ->; cbn [length] in L; lia | ]. rewrite app_length in L. cbn [length] in L.
  unfold claim_run. rewrite !ask_app. pose proof (ask_length qs w) as LW. set (T := ask qs w []) in *. clearbody T. cbn [ask].
  set (x1 := qs (map snd T)). set (a1 := match recall x1 T with Some a => a | None => b end). set (T1 := T ++ [(x1, a1)]).
  set (x2 := qs (map snd T1)). set (a2 := match recall x2 T1 with Some a => a | None => c end).
  assert (F : firstn n (map snd (T1 ++ [(x2, a2)])) = map snd T).
  { unfold T1. rewrite <- app_assoc, map_app, firstn_app, map_length. replace (n - length T)%nat with 0%nat by lia. rewrite firstn_O, app_nil_r. apply firstn_all2. rewrite map_length. lia. }
  assert (F0 : firstn n (map snd T) = map snd T) by (apply firstn_all2; rewrite map_length; lia).
  assert (F1 : firstn n (map snd T1) = map snd T).
  { unfold T1. rewrite map_app, firstn_app, map_length. replace (n - length T)%nat with 0%nat by lia. rewrite firstn_O, app_nil_r. exact F0. }
  rewrite F, !map_app. cbn [map fst]. split.
  - apply in_or_app. left. unfold T1. rewrite map_app. apply in_or_app. right. cbn [map fst]. left. unfold x1, claim_questions. rewrite map_length.
    replace (Nat.ltb (length T) n) with false by (symmetry; apply Nat.ltb_ge; lia). replace (Nat.eqb (length T) n) with true by (symmetry; apply Nat.eqb_eq; lia). rewrite F0. reflexivity.
  - apply in_or_app. right. left. unfold x2, claim_questions. rewrite map_length. assert (LT1 : length T1 = S n) by (unfold T1; rewrite app_length; cbn [length]; lia).
    replace (Nat.ltb (length T1) n) with false by (symmetry; apply Nat.ltb_ge; lia). replace (Nat.eqb (length T1) n) with false by (symmetry; apply Nat.eqb_neq; lia). rewrite F1. reflexivity.
Qed.
(* the answer to the first question for an input is the coin of this step *)
Lemma at_position : forall h x j, In h (coins_of (S (S n))) -> position x (run h) = Some j ->
  (j < S (S n))%nat /\ x = qs (map snd (ask qs (firstn j h) [])) /\ recall x (run h) = Some (nth j h []) /\ table_xof (run h) x 114 = nth j h [] /\
  recall x (ask qs (firstn j h) []) = None.
Proof.
  intros h x j H J. pose proof (vectors_length _ _ _ H) as LH. destruct (position_some _ _ _ J) as (Lj & Nj & Fj & Rj). unfold claim_run in Lj. rewrite ask_length in Lj.
  assert (C1 : nth_error h j = Some (nth j h [])) by (apply nth_error_nth'; lia).
  destruct (ask_split _ h j _ C1 _ Nj Fj) as (X1 & A1).
  assert (M : length (nth j h []) = 114%nat) by (apply (proj1 (in_strings 114 _)); apply (vectors_in _ _ h _ H); apply nth_In; lia).
  assert (RR : recall x (run h) = Some (nth j h [])) by (rewrite Rj; exact A1).
  repeat apply conj; [ lia | exact X1 | exact RR | apply table_at; assumption | ].
  assert (EF : firstn j (run h) = ask qs (firstn j h) []).
  { unfold claim_run. rewrite <- (firstn_skipn j h) at 1. rewrite ask_app. destruct (ask_ext qs (skipn j h) (ask qs (firstn j h) [])) as (U & -> & _).
    rewrite firstn_app, ask_length, firstn_length. replace (j - Nat.min j (length h))%nat with 0%nat by lia. rewrite firstn_O, app_nil_r. apply firstn_all2. rewrite ask_length, firstn_length. lia. }
  rewrite <- EF. exact Fj.
Qed.
Lemma in_earlier : forall h x i j, In h (coins_of (S (S n))) -> position x (run h) = Some i -> (i < j)%nat -> (j <= S (S n))%nat -> In (x, nth i h []) (ask qs (firstn j h) []).
Proof.
  intros h x i j H I L LJ. pose proof (vectors_length _ _ _ H) as LH. destruct (at_position h x i H I) as (Li & X & _ & _ & F).
  assert (E : firstn j h = firstn i h ++ nth i h [] :: skipn (S i) (firstn j h)).
  { rewrite <- (firstn_skipn i (firstn j h)) at 1. rewrite firstn_firstn. replace (Nat.min i j) with i by lia. f_equal.
    assert (NE : nth_error (firstn j h) i = Some (nth i h [])).
    { rewrite (nth_error_nth' (firstn j h) []) by (rewrite firstn_length; lia). f_equal. rewrite <- (firstn_skipn j h) at 2. rewrite app_nth1 by (rewrite firstn_length; lia). reflexivity. }
    exact (skipn_next _ _ _ NE). }
  rewrite E, ask_app. cbn [ask]. rewrite <- X, F. destruct (ask_ext qs (skipn (S i) (firstn j h)) (ask qs (firstn i h) [] ++ [(x, nth i h [])])) as (U & -> & _).
  apply in_or_app. left. apply in_or_app. right. left. reflexivity.
Qed.

Lemma accepted_linear : forall H, is_xof H -> forall pub sig m A R, bytes pub -> bytes sig -> denotes pub A -> denotes (firstn 57 sig) R ->
  ed448_verify H pub sig m = Some (Ok true) -> ~ false_positive H pub sig m ->
  exists x r, 0 <= x < q448 /\ 0 <= r < q448 /\ subgroup_part A = emul x ebase /\ subgroup_part R = emul r ebase /\ (57 <= length sig)%nat /\
  le_val (firstn 57 (skipn 57 sig)) mod q448 = (r + le_val (H (forged_input A (sig, m)) 114%nat) * x) mod q448.
Proof.
  intros H X pub sig m A R B1 B2 D1 D2 V F.
  destruct (verify_errors H X pub sig m B1 B2) as (_ & _ & _ & _ & _ & (K & _) & _). destruct K as (NZ & DP & L & DR); [ exists true; exact V | ].
  destruct (verify_linear H X pub sig m A R B1 B2 L NZ DP DR D1 D2) as (x & r & RX & RR & EA & ER & _ & K). exists x, r.
  repeat (split; [ first [ assumption | lia ] | ]). destruct (K V) as [ E | E ]; [ | destruct (F E) ]. rewrite E. unfold forged_input, rfc_challenge. cbn [fst snd]. rewrite EA. reflexivity.
Qed.
Lemma win_bad : forall h, In h (coins_of (S (S n))) -> double_win h -> existsb (fun j => bad_at j h) (seq 0 (S (S n))) = true.
Proof.
  intros h I W. pose proof (vectors_length _ _ _ I) as LH. pose proof (run_xof h I) as X. unfold double_win in W. cbv zeta in W.
  destruct (both_asked h LH) as (I1 & I2). destruct (position_in _ _ I1) as (j1 & J1). destruct (position_in _ _ I2) as (j2 & J2). clear I1 I2.
  set (c := claimed h) in *. set (H := table_xof (run h)) in *.
  destruct W as (Bk1 & Bk2 & Bs & D1 & D2 & (R & DR) & NZ & NE & V1 & F1 & V2 & F2).
  destruct (accepted_linear H X _ _ _ _ R Bk1 Bs D1 DR V1 F1) as (x1 & r1 & RX1 & RR1 & EA1 & ER1 & LS & Q1).
  destruct (accepted_linear H X _ _ _ _ R Bk2 Bs D2 DR V2 F2) as (x2 & r2 & RX2 & RR2 & EA2 & ER2 & _ & Q2).
  assert (r2 = r1). { rewrite ER1 in ER2. apply base_inj in ER2. rewrite !Z.mod_small in ER2 by assumption. symmetry. exact ER2. } subst r2. clear ER1 ER2.
  fold (input1 c) in Q1. fold (input2 c) in Q2.
  destruct (at_position h _ _ I J1) as (L1 & X1 & _ & T1 & N1). destruct (at_position h _ _ I J2) as (L2 & X2 & _ & T2 & N2). fold H in T1, T2. rewrite T1 in Q1. rewrite T2 in Q2.
  assert (LR : length (firstn 57 (signature c)) = 57%nat) by (rewrite firstn_length; lia).
  assert (G1 : log_of (input1 c) = x1) by (unfold input1, forged_input; cbn [fst snd]; rewrite EA1; apply log_of_input; assumption).
  assert (G2 : log_of (input2 c) = x2) by (unfold input2, forged_input; cbn [fst snd]; rewrite EA2; apply log_of_input; assumption).
  assert (Q : (x1 * le_val (nth j1 h [])) mod q448 = (x2 * le_val (nth j2 h [])) mod q448).
  { rewrite Q1 in Q2. rewrite (Z.mul_comm x1), (Z.mul_comm x2). generalize dependent (le_val (nth j1 h []) * x1). intros a _ Q2. generalize dependent (le_val (nth j2 h []) * x2). intros b Q2. clear - Q2.
    replace a with (r1 + a - r1) by ring. replace b with (r1 + b - r1) by ring. rewrite (Zminus_mod (r1 + a)), (Zminus_mod (r1 + b)), Q2. reflexivity. }
  assert (NI : input1 c <> input2 c).
  { intro E. unfold input1, input2, forged_input in E. cbn [fst snd] in E. apply app_inv_head in E. apply app_inv_head in E. apply app_len_inj in E as (E1 & E2); [ | rewrite !eencode_len; reflexivity ].
    apply NE. split; [ | exact E2 ]. apply eencode_inj in E1; [ exact E1 | rewrite EA1; apply emul_on; exact ebase_on | rewrite EA2; apply emul_on; exact ebase_on ]. }
  assert (NX : x1 <> 0 \/ x2 <> 0).
  { destruct (Z.eq_dec x1 0) as [ -> | K ]; [ | left; exact K ]. destruct (Z.eq_dec x2 0) as [ -> | K ]; [ | right; exact K ]. destruct NZ. rewrite EA1, EA2, emul_0. split; reflexivity. }
  assert (ZQ : forall x k, 0 <= x < q448 -> x <> 0 -> (x * k) mod q448 = 0 -> k mod q448 = 0).
  { clear. intros x k RX NX E. apply Z.mod_divide in E; [ | discriminate ]. apply prime_mult in E; [ | exact q448_prime ]. destruct E as [ E | E ]; [ | apply Z.mod_divide; [ discriminate | exact E ] ].
    apply Z.divide_pos_le in E; lia. }
  assert (BZ : forall j, (j < S (S n))%nat -> le_val (nth j h []) mod q448 = 0 -> existsb (fun j => bad_at j h) (seq 0 (S (S n))) = true).
  { intros j L E. apply existsb_exists. exists j. split; [ apply in_seq; lia | ]. unfold bad_at, bad. rewrite E. reflexivity. }
  assert (BR : forall i j x y, (i < j)%nat -> position x (run h) = Some i -> y = qs (map snd (ask qs (firstn j h) [])) -> (j < S (S n))%nat -> log_of y <> 0 ->
    (log_of x * le_val (nth i h [])) mod q448 = (log_of y * le_val (nth j h [])) mod q448 -> existsb (fun j => bad_at j h) (seq 0 (S (S n))) = true).
  { intros i j x y LT PI EY LJ NZY E. apply existsb_exists. exists j. split; [ apply in_seq; lia | ]. unfold bad_at, bad. rewrite <- EY. apply orb_true_iff. right. apply existsb_exists.
    exists (x, nth i h []). split; [ apply (in_earlier h x i j I PI LT); lia | ]. unfold related. cbn [fst snd]. apply andb_true_iff. split; [ apply negb_true_iff, Z.eqb_neq; exact NZY | apply Z.eqb_eq; exact E ]. }
  destruct (lt_eq_lt_dec j1 j2) as [ [ LT | EQ ] | LT ].
  - destruct (Z.eq_dec x2 0) as [ Z2 | Z2 ].
    + apply (BZ j1 L1). apply (ZQ x1); [ exact RX1 | destruct NX; [ assumption | contradiction ] | ]. rewrite Q, Z2. reflexivity.
    + apply (BR j1 j2 (input1 c) (input2 c)); try assumption; [ rewrite G2; exact Z2 | rewrite G1, G2; exact Q ].
  - destruct NI. rewrite X1, X2, EQ. reflexivity.
  - destruct (Z.eq_dec x1 0) as [ Z1 | Z1 ].
    + apply (BZ j2 L2). apply (ZQ x2); [ exact RX2 | destruct NX; [ contradiction | assumption ] | ]. rewrite <- Q, Z1. reflexivity.
    + apply (BR j2 j1 (input2 c) (input1 c)); try assumption; [ rewrite G1; exact Z1 | rewrite G1, G2; symmetry; exact Q ].
Qed.
Lemma exists_sum : forall (l : list nat) (h : list (list Z)), (if existsb (fun j => bad_at j h) l then 1 else 0) <= lsum (fun j => if bad_at j h then 1 else 0) l.
Proof.
  intros l h. induction l as [ | j l IH ]; [ apply Z.le_refl | ]. cbn [existsb lsum].
  assert (P : 0 <= lsum (fun j => if bad_at j h then 1 else 0) l) by (apply lsum_nonneg; intros i _; destruct (bad_at i h); lia).
  destruct (bad_at j h); cbn [orb]; [ lia | rewrite Z.add_0_l; exact IH ].
Qed.
Lemma triangle : forall m w, 2 * lsum (fun j => (Z.of_nat j + 1) * w) (seq 0 m) = Z.of_nat m * (Z.of_nat m + 1) * w.
Proof.
  intros m w. induction m as [ | m IH ]; [ reflexivity | ]. rewrite seq_S, lsum_app. cbn [lsum Nat.add]. rewrite Z.mul_add_distr_l, IH, Nat2Z.inj_succ. ring.
Qed.
Theorem binding_bound : forall good : list (list Z) -> bool, (forall h, In h (coins_of (S (S n))) -> good h = true -> double_win h) ->
  2 * tally good (coins_of (S (S n))) <= (Z.of_nat n + 2) * (Z.of_nat n + 3) * (256 ^ 114 / q448 + 1) * (256 ^ 114) ^ (Z.of_nat n + 1).
Proof.
  intros good HG. fold share. set (m := S (S n)) in *.
  assert (B : tally good (coins_of m) <= lsum (fun j => (Z.of_nat j + 1) * ((share + 1) * (256 ^ 114) ^ (Z.of_nat n + 1))) (seq 0 m)).
  { rewrite lsum_tally. refine (Z.le_trans _ (lsum (fun h => lsum (fun j => if bad_at j h then 1 else 0) (seq 0 m)) (coins_of m)) _ _ _).
    - apply lsum_le. intros h I. destruct (good h) eqn:G.
      + refine (Z.le_trans _ _ _ _ (exists_sum (seq 0 m) h)). pose proof (win_bad h I (HG h I G)) as WB. fold m in WB. rewrite WB. apply Z.le_refl.
      + apply lsum_nonneg. intros j _. destruct (bad_at j h); lia.
    - rewrite lsum_swap. apply lsum_le. intros j J. apply in_seq in J. pose proof (count_bad j (m - S j)) as K.
      replace (j + S (m - S j))%nat with m in K by (unfold m in *; lia). replace (Z.of_nat (j + (m - S j))) with (Z.of_nat n + 1) in K by (unfold m in *; lia).
      rewrite <- Z.mul_assoc in K. exact K. }
  apply (Z.mul_le_mono_nonneg_l _ _ 2) in B; [ | discriminate ]. rewrite triangle in B.
  replace (Z.of_nat m) with (Z.of_nat n + 2) in B by (unfold m; lia). replace (Z.of_nat n + 2 + 1) with (Z.of_nat n + 3) in B by ring. rewrite <- Z.mul_assoc. exact B.
Qed.
(* as a rate *)
Theorem binding_rate : forall (good : list (list Z) -> bool) t, (forall h, In h (coins_of (S (S n))) -> good h = true -> double_win h) ->
  0 <= t -> 2 * t <= 445 -> Z.of_nat n + 3 <= 2 ^ t -> 2 ^ (446 - 2 * t) * tally good (coins_of (S (S n))) <= (256 ^ 114) ^ (Z.of_nat n + 2).
Proof.
  intros good t HG T0 T1 LN. pose proof (binding_bound good HG) as B. generalize dependent (tally good (coins_of (S (S n)))). intros w B.
  assert (NL : 2 ^ 445 * (256 ^ 114 / q448 + 1) <= 256 ^ 114) by (apply Z.leb_le; vm_compute; reflexivity).
  replace (Z.of_nat n + 2) with (Z.succ (Z.of_nat n + 1)) by ring. rewrite Z.pow_succ_r by lia.
  assert (LP : 0 <= 256 ^ 114 / q448 + 1) by (apply Z.leb_le; vm_compute; reflexivity).
  assert (PP : 0 <= (256 ^ 114) ^ (Z.of_nat n + 1)) by (apply Z.pow_nonneg, Z.pow_nonneg; discriminate).
  set (L := 256 ^ 114 / q448 + 1) in *. set (N := 256 ^ 114) in *. clearbody L N. set (P := N ^ (Z.of_nat n + 1)) in *. clearbody P.
  replace (446 - 2 * t) with (Z.succ (445 - 2 * t)) by ring. rewrite Z.pow_succ_r by lia.
  assert (E : 2 ^ (445 - 2 * t) * (2 ^ t * 2 ^ t) = 2 ^ 445) by (rewrite <- !Z.pow_add_r by lia; f_equal; ring).
  assert (C0 : 0 <= 2 ^ (445 - 2 * t)) by (apply Z.pow_nonneg; discriminate).
  set (c := 2 ^ (445 - 2 * t)) in *. clearbody c. set (v := 2 ^ t) in *. clearbody v. rewrite <- E in NL. clear E HG T0 T1.
  assert (K1 : (Z.of_nat n + 2) * (Z.of_nat n + 3) <= v * v) by (apply Z.mul_le_mono_nonneg; lia).
  assert (K2 : (Z.of_nat n + 2) * (Z.of_nat n + 3) * L * P <= v * v * L * P) by (apply Z.mul_le_mono_nonneg_r; [ exact PP | ]; apply Z.mul_le_mono_nonneg_r; assumption).
  apply (Z.le_trans _ (c * (v * v * L * P))).
  - replace (2 * c * w) with (c * (2 * w)) by ring. apply Z.mul_le_mono_nonneg_l; [ exact C0 | ]. exact (Z.le_trans _ _ _ B K2).
  - replace (c * (v * v * L * P)) with (c * (v * v) * L * P) by ring. apply Z.mul_le_mono_nonneg_r; assumption.
Qed.
End Binding.
