(* From the real game to the signer with a nonce of its own, and the count. *)
From Coq Require Import ZArith List Bool Lia.
From Verif Require Import Base SpecField SpecBytes SpecScalar SpecCurve SpecDecode SpecEd448 SpecVerify SpecInternal SpecUniform SpecQueries SpecForger.
From Verif Require Import Bytes Errors Eddsa Goldilocks Game.
From Verif Require Import Field Edwards Isogeny CombMul BaseTables PrimeQ Decode Ed448 Order Equation Facts Sound Kernel Uniform Count Bind Protocol Structure SmallKeys Queries Transcripts Unbias Forking Forger GameFork GameHop.
Import ListNotations.
Open Scope Z_scope.
Local Opaque strings q448 below.

Lemma known_app : forall t e a m, known (View (t ++ [e]) a m) = concat t ++ e.
Proof. intros t e a m. unfold known. cbn [tab]. rewrite concat_app. cbn [concat]. rewrite app_nil_r. reflexivity. Qed.
Lemma step1_grows : forall s next st coin, exists e, known (own_step s next st coin) = known st ++ e /\ (length e <= 1)%nat.
Proof.
  intros s next st (c, rho). unfold own_step. destruct (next (answers st)) as [ x | m ]; [ | destruct (is_signed st m) ].
  - eexists. unfold ask_hash. rewrite known_app. split; [ reflexivity | apply Nat.le_refl ].
  - exists []. unfold refuse. rewrite known_app. split; [ reflexivity | cbn [length]; lia ].
  - eexists. unfold own_sign. rewrite known_app. split; [ reflexivity | apply Nat.le_refl ].
Qed.
Lemma fold1_grows : forall s next l st, exists e, known (fold_left (own_step s next) l st) = known st ++ e /\ (length e <= length l)%nat.
Proof.
  intros s next. induction l as [ | c l IH ]; intro st; [ exists []; cbn [fold_left length]; rewrite app_nil_r; split; [ reflexivity | lia ] | ]. cbn [fold_left length].
  destruct (step1_grows s next st c) as (e & E & L). destruct (IH (own_step s next st c)) as (f & F & M). exists (e ++ f). rewrite F, E, app_length, app_assoc. split; [ reflexivity | lia ].
Qed.

Section Hop1.
Variables key d : list Z.
Variable next : list (list Z) -> query.
Variable finish : list (list Z) -> list Z * list Z.
Variable exact : list Z -> list Z -> list Z -> list Z -> bool.
Hypothesis KL : length key = 57%nat.
Hypothesis KB : bytes key.
Hypothesis KS : enc_sign key = false.
Hypothesis DI : In d (strings 114).
Local Notation s := (secret_scalar d).
Local Notation A := (emul (secret_scalar d) ebase).
Local Notation prefix := (skipn 57 d).
Definition public (x : list Z) : Prop := x <> key /\ firstn 67 x <> rfc_dom ++ prefix.
Definition nonce_of (m : list Z) : list Z := rfc_dom ++ prefix ++ m.
Definition related (st st1 : view) : Prop :=
  answers st = answers st1 /\ signed st = signed st1 /\ (forall x, public x -> recall x (known st) = recall x (known st1)) /\
  recall key (known st) = Some d /\ (forall m, ~ In m (map fst (signed st)) -> recall (nonce_of m) (known st) = None) /\
  (forall x a, In (x, a) (known st) -> In a (strings 114)) /\ (forall x a, In (x, a) (known st1) -> In a (strings 114)).
Lemma d_length : length d = 114%nat.
Proof. exact (proj1 (proj1 (in_strings 114 d) DI)). Qed.
Lemma prefix_length : length prefix = 57%nat.
Proof. rewrite skipn_length, d_length. reflexivity. Qed.
Lemma nonce_private : forall m, ~ public (nonce_of m).
Proof.
  intros m (_ & H). apply H. unfold nonce_of. rewrite app_assoc, firstn_app. assert (L : length (rfc_dom ++ prefix) = 67%nat) by (rewrite app_length, prefix_length; reflexivity).
  rewrite firstn_all2 by lia. rewrite L, Nat.sub_diag. cbn [firstn]. apply app_nil_r.
Qed.
Lemma nonce_key : forall m, nonce_of m <> key.
Proof. intros m E. apply (f_equal (@length Z)) in E. unfold nonce_of in E. rewrite !app_length, prefix_length, KL in E. cbn [length rfc_dom] in E. lia. Qed.
Lemma same_false : forall x y, x <> y -> same_string x y = false.
Proof. intros x y N. destruct (same_string x y) eqn:E; [ exfalso; apply N; apply same_string_eq; exact E | reflexivity ]. Qed.
Lemma recall_one : forall x y a, x <> y -> recall x [(y, a)] = None.
Proof. intros x y a N. cbn [recall]. rewrite (same_false _ _ N). reflexivity. Qed.
Lemma recall_this : forall x a T, recall x ((x, a) :: T) = Some a.
Proof. intros x a T. cbn [recall]. rewrite same_refl. reflexivity. Qed.
Lemma table_key : forall T, recall key T = Some d -> table_xof T key 114 = d.
Proof. intros T E. exact (table_at T key d 114 E d_length). Qed.
Lemma inputs_of : forall T m, recall key T = Some d -> sign_inputs (table_xof T) key m =
  [key; nonce_of m; rfc_dom ++ eencode (emul (le_val (table_xof T (nonce_of m) 114)) ebase) ++ eencode A ++ m].
Proof. intros T m E. unfold sign_inputs, derive_inputs, sign_prefix, key_scalar. rewrite KS, (table_key T E). reflexivity. Qed.
Lemma signed_same : forall st st1 m, signed st = signed st1 -> is_signed st m = is_signed st1 m.
Proof. intros st st1 m E. unfold is_signed. rewrite E. reflexivity. Qed.
Lemma given_same : forall st st1 sig m, signed st = signed st1 -> is_given st sig m = is_given st1 sig m.
Proof. intros st st1 sig m E. unfold is_given. rewrite E. reflexivity. Qed.
Local Notation step1 := (own_step (secret_scalar d) next).
Lemma step_related : forall st st1 coin, related st st1 -> In (fst coin) (strings 114) -> In (snd coin) (strings 114) ->
  (forall x a, In (x, a) (known (step1 st1 coin)) -> public x) -> related (real_step next key st coin) (step1 st1 coin).
Proof.
  intros st st1 (c, rho) (R1 & R2 & R3 & R4 & R5 & R6 & R7) IC IR P. cbn [fst snd] in IC, IR. unfold real_step, own_step in *. rewrite <- R1 in *.
  destruct (next (answers st)) as [ x | m ]; cbn [fst snd] in *.
  - unfold ask_hash in *. cbv zeta in *. rewrite known_app in P. assert (PX : public x) by (apply (P x (sampled (concat (tab st1)) x c)); apply in_or_app; right; left; reflexivity).
    assert (ES : sampled (known st) x c = sampled (known st1) x c) by (unfold sampled; rewrite (R3 x PX); reflexivity).
    assert (IS : In (sampled (known st) x c) (strings 114)) by (apply sampled_in; assumption).
    unfold related. rewrite !known_app. cbn [answers signed]. rewrite <- ES. fold (known st) (known st1). split; [ congruence | ]. split; [ exact R2 | ]. split; [ | split; [ | split; [ | split ] ] ].
    + intros y PY. rewrite !recall_app, (R3 y PY). reflexivity.
    + rewrite recall_app, R4. reflexivity.
    + intros m I. rewrite recall_app, (R5 m I). apply recall_one. intro E. apply (nonce_private m). rewrite E. exact PX.
    + intros y a I. apply in_app_or in I as [ I | [ E | [] ] ]; [ exact (R6 y a I) | ]. injection E as <- <-. exact IS.
    + intros y a I. apply in_app_or in I as [ I | [ E | [] ] ]; [ exact (R7 y a I) | ]. injection E as <- <-. exact IS.
  - rewrite <- (signed_same st st1 m R2) in *. destruct (is_signed st m) eqn:SG.
    + unfold refuse, related. rewrite !known_app, !app_nil_r. cbn [answers signed]. fold (known st) (known st1). rewrite R1.
      split; [ reflexivity | ]. split; [ exact R2 | ]. split; [ exact R3 | ]. split; [ exact R4 | ]. split; [ exact R5 | ]. split; assumption.
    + assert (NI : ~ In m (map fst (signed st))) by (intro I; apply signed_in in I; congruence). pose proof (R5 m NI) as RN. set (r := le_val rho) in *. set (T := known st) in *.
      assert (E1 : nth 1 (sign_inputs (table_xof T) key m) [] = nonce_of m) by (rewrite (inputs_of T m R4); reflexivity).
      assert (E2 : sampled T (nonce_of m) rho = rho) by (unfold sampled; rewrite RN; reflexivity).
      set (T1 := T ++ [(nonce_of m, rho)]). assert (R4' : recall key T1 = Some d) by (unfold T1; rewrite recall_app, R4; reflexivity).
      assert (RN' : recall (nonce_of m) T1 = Some rho) by (unfold T1; rewrite recall_app, RN; apply recall_this).
      assert (LR : length rho = 114%nat) by exact (proj1 (proj1 (in_strings 114 rho) IR)).
      set (x2 := nonce_input (secret_scalar d) m r).
      assert (E3 : nth 2 (sign_inputs (table_xof T1) key m) [] = x2) by (rewrite (inputs_of T1 m R4'), (table_at T1 _ rho 114 RN' LR); reflexivity).
      unfold own_sign in *. cbv zeta in *. fold x2 in P |- *. rewrite known_app in P. set (a2 := sampled (known st1) x2 c) in *.
      assert (PX : public x2) by (apply (P x2 a2); apply in_or_app; right; left; reflexivity).
      assert (NX : x2 <> nonce_of m) by (intro E; apply (nonce_private m); rewrite <- E; exact PX).
      assert (E4 : sampled T1 x2 c = a2).
      { unfold a2, sampled, T1. rewrite recall_app, (R3 x2 PX). destruct (recall x2 (known st1)); [ reflexivity | ]. rewrite (recall_one _ _ _ NX). reflexivity. }
      assert (IA : In a2 (strings 114)) by (apply sampled_in; assumption).
      assert (LA : length a2 = 114%nat) by exact (proj1 (proj1 (in_strings 114 a2) IA)).
      set (T2 := T1 ++ [(x2, a2)]).
      assert (X2 : is_xof (table_xof T2)).
      { apply table_bytes. intros y a I. unfold T2, T1 in I. apply in_app_or in I as [ I | [ E | [] ] ]; [ | injection E as <- <-; exact IA ].
        apply in_app_or in I as [ I | [ E | [] ] ]; [ exact (R6 y a I) | injection E as <- <-; exact IR ]. }
      assert (R4'' : recall key T2 = Some d) by (unfold T2; rewrite recall_app, R4'; reflexivity).
      assert (RN'' : recall (nonce_of m) T2 = Some rho) by (unfold T2; rewrite recall_app, RN'; reflexivity).
      assert (RX : recall x2 T2 = Some a2) by (unfold T2; rewrite <- E4; apply sampled_recall).
      assert (E5 : ed448_sign (table_xof T2) key m = Some (eencode (emul r ebase) ++ le_bytes 57 ((r + le_val a2 * secret_scalar d) mod q448))).
      { rewrite (sign_ok (table_xof T2) X2 key m KL KB), KS. unfold rfc_sign, rfc_sign_with, rfc_public. rewrite (table_key T2 R4''). fold (nonce_of m). rewrite (table_at T2 _ rho 114 RN'' LR).
        fold r. change (rfc_dom ++ eencode (emul r ebase) ++ eencode A ++ m) with x2. cbv zeta. rewrite (table_at T2 _ a2 114 RX LA). reflexivity. }
      unfold real_sign. cbv zeta. fold T. assert (ED : length (derive_inputs key) = 1%nat) by (unfold derive_inputs; rewrite KS; reflexivity). rewrite ED, E1, E2. fold T1. rewrite E3, E4. fold T2. rewrite E5. unfold related. rewrite !known_app. cbn [answers signed].
      fold (known st) (known st1). fold T. split; [ rewrite R1; reflexivity | ]. split; [ rewrite R2; reflexivity | ]. split; [ | split; [ | split; [ | split ] ] ].
      * intros y PY. rewrite !recall_app, (R3 y PY). destruct (recall y (known st1)); [ reflexivity | ]. cbn [recall]. rewrite (same_false y (nonce_of m)); [ reflexivity | ].
        intro E. apply (nonce_private m). rewrite <- E. exact PY.
      * rewrite recall_app, R4. reflexivity.
      * intros m' I. rewrite recall_app, (R5 m'); [ | intro J; apply I; rewrite map_app; apply in_or_app; left; exact J ]. cbn [recall]. rewrite (same_false (nonce_of m') (nonce_of m)).
        -- rewrite (same_false (nonce_of m') x2); [ reflexivity | ]. intro E. apply (nonce_private m'). rewrite E. exact PX.
        -- intro E. unfold nonce_of in E. apply app_inv_head in E. apply app_inv_head in E. apply I. rewrite map_app. apply in_or_app. right. left. symmetry. exact E.
      * intros y a I. apply in_app_or in I as [ I | [ E | [ E | [] ] ] ]; [ exact (R6 y a I) | injection E as <- <-; exact IR | injection E as <- <-; exact IA ].
      * intros y a I. apply in_app_or in I as [ I | [ E | [] ] ]; [ exact (R7 y a I) | injection E as <- <-; exact IA ].
Qed.
Lemma fold_related : forall l st st1, related st st1 -> (forall coin, In coin l -> In (fst coin) (strings 114) /\ In (snd coin) (strings 114)) ->
  (forall x a, In (x, a) (known (fold_left step1 l st1)) -> public x) -> related (fold_left (real_step next key) l st) (fold_left step1 l st1).
Proof.
  induction l as [ | c l IH ]; intros st st1 R HC P; [ exact R | ]. cbn [fold_left] in *. destruct (fold1_grows s next l (step1 st1 c)) as (e & E & _).
  apply IH; [ | intros coin I; apply HC; right; exact I | exact P ]. destruct (HC c (or_introl eq_refl)) as (C1 & C2). apply step_related; [ exact R | exact C1 | exact C2 | ].
  intros x a I. apply (P x a). rewrite E. apply in_or_app. left. exact I.
Qed.
Lemma final_related : forall st st1 c, related st st1 -> In c (strings 114) -> public (final_input finish A st1) -> final finish exact (eencode A) A st c = final finish exact (eencode A) A st1 c.
Proof.
  intros st st1 c (R1 & R2 & R3 & R4 & R5 & R6 & R7) IC P. pose proof (emul_on s ebase ebase_on) as CA.
  pose proof (final_facts finish exact (eencode A) A st c (eencode_bytes A) (denotes_eencode A CA) R6 IC) as (F1 & _).
  pose proof (final_facts finish exact (eencode A) A st1 c (eencode_bytes A) (denotes_eencode A CA) R7 IC) as (G1 & _). cbv zeta in F1, G1.
  unfold final. cbv zeta. rewrite F1, G1.
  assert (EX : final_input finish A st = final_input finish A st1) by (unfold final_input; rewrite R1; reflexivity).
  assert (ES : sampled (known st) (final_input finish A st) c = sampled (known st1) (final_input finish A st1) c) by (unfold sampled; rewrite EX, (R3 _ P); reflexivity).
  rewrite ES, EX, R1, (given_same st st1 _ _ R2). reflexivity.
Qed.
End Hop1.

(* what the forger and the verifier have asked in the game with own nonces *)
Section Own.
Variable n : nat.
Variable next : list (list Z) -> query.
Variable finish : list (list Z) -> list Z * list Z.
Variable exact : list Z -> list Z -> list Z -> list Z -> bool.
Definition own_end (s : Z) (coins : list (list Z * list Z)) : view := fold_left (own_step s next) (firstn n coins) (View [] [] []).
Definition own_wins (s : Z) (coins : list (list Z * list Z)) : bool := final finish exact (eencode (emul s ebase)) (emul s ebase) (own_end s coins) (fst (nth n coins ([], []))).
Definition asked (s : Z) (coins : list (list Z * list Z)) : list (list Z) := final_input finish (emul s ebase) (own_end s coins) :: map fst (known (own_end s coins)).
Definition asks_key (s : Z) (coins : list (list Z * list Z)) (key : list Z) : bool := existsb (same_string key) (asked s coins).
Definition asks_prefix (s : Z) (coins : list (list Z * list Z)) (pre : list Z) : bool := existsb (fun x => same_string pre (skipn 10 (firstn 67 x))) (asked s coins).
Lemma asked_length : forall s coins, length coins = S n -> (length (asked s coins) <= S n)%nat.
Proof.
  intros s coins L. unfold asked, own_end. cbn [length]. rewrite map_length. destruct (fold1_grows s next (firstn n coins) (View [] [] [])) as (e & E & M).
  rewrite E, app_length. rewrite firstn_length in M. change (length (known (View [] [] []))) with 0%nat. lia.
Qed.
Local Notation coins2 := (vectors (list_prod (strings 114) (strings 114)) (S n)).
Lemma real_own : forall key d coins, length key = 57%nat -> bytes key -> enc_sign key = false -> In d (strings 114) -> In coins coins2 ->
  b2z (real_wins n next finish exact key d coins) <= b2z (own_wins (secret_scalar d) coins) + b2z (asks_key (secret_scalar d) coins key) + b2z (asks_prefix (secret_scalar d) coins (skipn 57 d)).
Proof.
  intros key d coins KL KB KS DI CI. set (s := secret_scalar d).
  assert (NN : forall b, 0 <= b2z b) by (intros [ | ]; cbn [b2z]; lia). pose proof (NN (own_wins s coins)) as N1.
  destruct (asks_key s coins key) eqn:B1; [ pose proof (NN (asks_prefix s coins (skipn 57 d))); destruct (real_wins _ _ _ _ _ _ _); cbn [b2z]; lia | ].
  destruct (asks_prefix s coins (skipn 57 d)) eqn:B2; [ destruct (real_wins _ _ _ _ _ _ _); cbn [b2z]; lia | ].
  cbn [b2z]. rewrite !Z.add_0_r. apply Z.eq_le_incl. f_equal.
  assert (P : forall x, In x (asked s coins) -> public key d x).
  { intros x I. split.
    - intro E. assert (asks_key s coins key = true); [ | congruence ]. unfold asks_key. apply existsb_exists. exists x. split; [ exact I | ]. rewrite E. apply same_refl.
    - intro E. assert (asks_prefix s coins (skipn 57 d) = true); [ | congruence ]. unfold asks_prefix. apply existsb_exists. exists x. split; [ exact I | ]. rewrite E.
      change (skipn 10 (rfc_dom ++ skipn 57 d)) with (skipn 57 d). apply same_refl. }
  assert (EK : recall key [(key, d)] = Some d) by apply recall_this.
  assert (X0 : is_xof (table_xof [(key, d)])) by (apply table_bytes; intros x a [ E | [] ]; injection E as <- <-; exact DI).
  unfold real_wins. rewrite (derive_public_ok _ X0 key KL KB), KS. unfold rfc_public, key_scalar. rewrite KS, (table_key key d DI _ EK). fold s.
  assert (CC : forall c, In c coins -> In (fst c) (strings 114) /\ In (snd c) (strings 114)).
  { intros (c, r) I. apply (vectors_in _ _ coins _ CI) in I. apply in_prod_iff in I. exact I. }
  pose proof (vectors_length _ _ _ CI) as LC.
  assert (REL : related key d (fold_left (real_step next key) (firstn n coins) (real_start key d)) (fold_left (own_step (secret_scalar d) next) (firstn n coins) (View [] [] []))).
  { apply (fold_related key d next KL KB KS DI).
    + unfold related, real_start. cbn [answers signed]. split; [ reflexivity | ]. split; [ reflexivity | ].
      change (known (View [[(key, d)]] [] [])) with [(key, d)]. change (known (View [] [] [])) with (@nil (list Z * list Z)).
      split; [ | split; [ | split; [ | split ] ] ].
      * intros x (NX & _). rewrite (recall_one _ _ _ NX). reflexivity.
      * exact EK.
      * intros m _. apply recall_one. apply (nonce_key key d KL DI).
      * intros x a [ E | [] ]. injection E as <- <-. exact DI.
      * intros x a [].
    + intros c I. apply CC. exact (firstn_in _ _ _ _ I).
    + intros x a I. apply P. right. apply (in_map fst _ (x, a)). exact I. }
  assert (LI : In (fst (nth n coins ([], []))) (strings 114)).
  { assert (LL : (n < length coins)%nat) by (rewrite LC; apply Nat.lt_succ_diag_r). exact (proj1 (CC _ (nth_In coins ([], []) LL))). }
  exact (final_related key d finish exact _ _ _ REL LI (P _ (or_introl eq_refl))).
Qed.

Lemma few_hits : forall k (f : list Z -> list Z) l, lsum (fun u => b2z (existsb (fun x => same_string u (f x)) l)) (strings k) <= Z.of_nat (length l).
Proof.
  intros k f. induction l as [ | x l IH ]; [ cbn [existsb length b2z]; rewrite lsum_const; lia | ]. cbn [existsb length]. rewrite Nat2Z.inj_succ.
  eapply Z.le_trans; [ apply (lsum_le _ (fun u => b2z (same_string u (f x)) + b2z (existsb (fun x => same_string u (f x)) l))) | ].
  - intros u _. destruct (same_string u (f x)); cbn [orb b2z]; [ | lia ]. destruct (existsb _ l); cbn [b2z]; lia.
  - rewrite lsum_add. assert (K : lsum (fun u => b2z (same_string u (f x))) (strings k) <= 1); [ | lia ].
    destruct (existsb (same_string (f x)) (strings k)) eqn:E.
    + apply existsb_exists in E as (y & I & E). apply same_string_eq in E. subst y. apply in_strings in I as (L & B).
      rewrite <- (count_one k (f x) L B), lsum_tally. apply Z.eq_le_incl. apply lsum_ext. intros u _. rewrite same_sym. reflexivity.
    + rewrite (lsum_ext _ (fun _ => 0)), lsum_const; [ rewrite Z.mul_0_r; discriminate | ]. intros u I. destruct (same_string u (f x)) eqn:F; [ | reflexivity ]. exfalso.
      assert (existsb (same_string (f x)) (strings k) = true); [ | congruence ]. apply existsb_exists. exists u. split; [ exact I | ]. rewrite same_sym. exact F.
Qed.
End Own.
Lemma strings_split : forall a b (f : list Z -> Z), lsum f (strings (a + b)) = lsum (fun u => lsum (fun v => f (u ++ v)) (strings b)) (strings a).
Proof.
  intros a b. Local Transparent strings. induction a as [ | a IH ]; intro f; [ cbn [Nat.add strings lsum app]; rewrite Z.add_0_r; reflexivity | ].
  change (strings (S a + b)) with (flat_map (fun c => map (cons c) (strings (a + b))) all_bytes). change (strings (S a)) with (flat_map (fun c => map (cons c) (strings a)) all_bytes).
  rewrite !lsum_flat. apply lsum_ext. intros c _. rewrite !lsum_map, IH. reflexivity. Local Opaque strings.
Qed.
Lemma lsum_filter : forall (T : Type) (p : T -> bool) (f : T -> Z) l, (forall x, 0 <= f x) -> lsum f (filter p l) <= lsum f l.
Proof.
  intros T p f l P. induction l as [ | x l IH ]; [ apply Z.le_refl | ]. cbn [filter lsum]. destruct (p x); cbn [lsum]; [ apply Z.add_le_mono_l; exact IH | ]. pose proof (P x). lia.
Qed.
Lemma b2z_nonneg : forall b, 0 <= b2z b.
Proof. intros [ | ]; discriminate. Qed.
Lemma seeds_in : forall k, In k seeds <-> length k = 57%nat /\ bytes k /\ enc_sign k = false.
Proof.
  intro k. unfold seeds. rewrite filter_In, in_strings. destruct (enc_sign k); cbn [negb]; split.
  - intros (_ & E). discriminate E.
  - intros (_ & _ & E). discriminate E.
  - intros ((L & B) & _). split; [ exact L | ]. split; [ exact B | reflexivity ].
  - intros (L & B & _). split; [ | reflexivity ]. split; assumption.
Qed.
Lemma tally_filter : forall (T : Type) (p : T -> bool) l, Z.of_nat (length (filter (fun x => negb (p x)) l)) + tally p l = Z.of_nat (length l).
Proof. intros T p. induction l as [ | x l IH ]; [ reflexivity | ]. cbn [filter tally length]. destruct (p x); cbn [negb length]; rewrite ?Nat2Z.inj_succ; lia. Qed.
Lemma tally_all : forall (T : Type) (l : list T), tally (fun _ => true) l = Z.of_nat (length l).
Proof. intros T l. rewrite lsum_tally, lsum_const. apply Z.mul_1_r. Qed.
Lemma seeds_count : 2 * Z.of_nat (length seeds) = 256 ^ 57.
Proof.
  pose proof (tally_filter _ enc_sign (strings 57)) as E. fold seeds in E. pose proof half_expanded as H. pose proof (count_all 57) as U. change (Z.of_nat 57) with 57 in U. rewrite tally_all in U. rewrite U in E.
  revert E H. generalize (256 ^ 57), (tally enc_sign (strings 57)), (Z.of_nat (length seeds)). intros. lia.
Qed.

Lemma game_own : forall n next finish exact key d coins, length key = 57%nat -> bytes key -> enc_sign key = false -> In d (strings 114) ->
  In coins (vectors (list_prod (strings 114) (strings 114)) (S n)) -> let s := secret_scalar d in let pub := eencode (emul s ebase) in
  b2z (real_game n next finish exact key d coins) <=
  b2z (own_wins n (next pub) (finish pub) exact s coins) + b2z (asks_key n (next pub) (finish pub) s coins key) + b2z (asks_prefix n (next pub) (finish pub) s coins (skipn 57 d)).
Proof.
  intros n next finish exact key d coins L B E Id Ic s pub. assert (X0 : is_xof (table_xof [(key, d)])) by (apply table_bytes; intros x a [ F | [] ]; injection F as <- <-; exact Id).
  unfold real_game. rewrite (derive_public_ok _ X0 key L B), E. unfold rfc_public. rewrite (table_key key d Id _ (recall_this _ _ _)). fold s pub. exact (real_own n (next pub) (finish pub) exact key d coins L B E Id Ic).
Qed.
Section Count1.
Variable n : nat.
Variable next : list Z -> list (list Z) -> query.
Variable finish : list Z -> list (list Z) -> list Z * list Z.
Variable exact : list Z -> list Z -> list Z -> list Z -> bool.
Variables ST HS SD : list (list Z).
Variable CO : list (list (list Z * list Z)).
Hypothesis EST : ST = strings 114.
Hypothesis EHS : HS = strings 57.
Hypothesis ESD : SD = seeds.
Hypothesis ECO : CO = vectors (list_prod (strings 114) (strings 114)) (S n).
Local Notation N := (Z.of_nat (length ST)).
Local Notation H := (Z.of_nat (length HS)).
Local Notation K := (Z.of_nat (length SD)).
Local Notation C := (Z.of_nat (length CO)).
Local Notation pk s := (eencode (emul s ebase)).
Local Notation keyed s := (asks_key n (next (pk s)) (finish (pk s)) s).
Local Notation prefixed s := (asks_prefix n (next (pk s)) (finish (pk s)) s).
Local Notation own s := (own_wins n (next (pk s)) (finish (pk s)) exact s).
Lemma co_length : forall c, In c CO -> length c = S n.
Proof. intros c I. rewrite ECO in I. exact (vectors_length _ _ _ I). Qed.
Lemma split_ST : forall f, lsum f ST = lsum (fun u => lsum (fun v => f (u ++ v)) HS) HS.
Proof. intro f. rewrite EST, EHS. exact (strings_split 57 57 f). Qed.
Lemma HS_length : forall u, In u HS -> length u = 57%nat.
Proof. intros u I. rewrite EHS in I. exact (proj1 (proj1 (in_strings 57 u) I)). Qed.
Lemma key_hits : lsum (fun k => lsum (fun d => lsum (fun c => b2z (keyed (secret_scalar d) c k)) CO) ST) SD <= N * (C * Z.of_nat (S n)).
Proof.
  rewrite lsum_swap. eapply Z.le_trans; [ | apply Z.eq_le_incl; apply (lsum_const (C * Z.of_nat (S n)) ST) ]. apply lsum_le. intros d _. rewrite lsum_swap.
  eapply Z.le_trans; [ | apply Z.eq_le_incl; apply (lsum_const (Z.of_nat (S n)) CO) ]. apply lsum_le. intros c I.
  rewrite ESD. unfold seeds. eapply Z.le_trans; [ apply lsum_filter; intro x; apply b2z_nonneg | ]. unfold asks_key.
  eapply Z.le_trans; [ exact (few_hits 57 (fun x => x) (asked n (next (pk (secret_scalar d))) (finish (pk (secret_scalar d))) (secret_scalar d) c)) | ]. apply Nat2Z.inj_le. apply asked_length. exact (co_length c I).
Qed.
Lemma prefix_hits : lsum (fun d => lsum (fun c => b2z (prefixed (secret_scalar d) c (skipn 57 d))) CO) ST <= H * (C * Z.of_nat (S n)).
Proof.
  rewrite split_ST. eapply Z.le_trans; [ | apply Z.eq_le_incl; apply (lsum_const (C * Z.of_nat (S n)) HS) ]. apply lsum_le. intros u Iu. rewrite lsum_swap.
  eapply Z.le_trans; [ | apply Z.eq_le_incl; apply (lsum_const (Z.of_nat (S n)) CO) ]. apply lsum_le. intros c I.
  rewrite (lsum_ext _ (fun v => b2z (prefixed (secret_scalar u) c v))).
  - unfold asks_prefix. rewrite EHS. eapply Z.le_trans; [ exact (few_hits 57 (fun x => skipn 10 (firstn 67 x)) (asked n (next (pk (secret_scalar u))) (finish (pk (secret_scalar u))) (secret_scalar u) c)) | ].
    apply Nat2Z.inj_le. apply asked_length. exact (co_length c I).
  - intros v _. pose proof (HS_length u Iu) as L.
    assert (E : secret_scalar (u ++ v) = secret_scalar u) by (apply secret_firstn; rewrite firstn_app, L; change (56 - 57)%nat with 0%nat; cbn [firstn]; apply app_nil_r).
    assert (F : skipn 57 (u ++ v) = v) by (rewrite skipn_app, L, Nat.sub_diag, skipn_all2 by (rewrite L; apply Nat.le_refl); reflexivity).
    rewrite E, F. reflexivity.
Qed.
Theorem count1 : lsum (fun k => lsum (fun d => lsum (fun c => b2z (real_game n next finish exact k d c)) CO) ST) SD <=
  K * lsum (fun d => lsum (fun c => b2z (own (secret_scalar d) c)) CO) ST + Z.of_nat (S n) * (N + K * H) * C.
Proof.
  eapply Z.le_trans; [ apply (lsum_le _ (fun k => (lsum (fun d => lsum (fun c => b2z (own (secret_scalar d) c)) CO) ST +
    lsum (fun d => lsum (fun c => b2z (keyed (secret_scalar d) c k)) CO) ST) + lsum (fun d => lsum (fun c => b2z (prefixed (secret_scalar d) c (skipn 57 d))) CO) ST)) | ].
  - intros k Ik. rewrite ESD in Ik. apply seeds_in in Ik as (L & B & E). rewrite <- !lsum_add. apply lsum_le. intros d Id. rewrite <- !lsum_add. apply lsum_le. intros c Ic.
    rewrite EST in Id. rewrite ECO in Ic. exact (game_own n next finish exact k d c L B E Id Ic).
  - rewrite !lsum_add, !lsum_const. pose proof key_hits as K1. pose proof prefix_hits as K2. revert K1 K2.
    generalize (lsum (fun k => lsum (fun d => lsum (fun c => b2z (keyed (secret_scalar d) c k)) CO) ST) SD) (lsum (fun d => lsum (fun c => b2z (prefixed (secret_scalar d) c (skipn 57 d))) CO) ST)
      (lsum (fun d => lsum (fun c => b2z (own (secret_scalar d) c)) CO) ST) (Z.of_nat (S n)). intros a b o m K1 K2.
    assert (K3 : K * b <= K * (H * (C * m))) by (apply Z.mul_le_mono_nonneg_l; [ apply Nat2Z.is_nonneg | exact K2 ]).
    replace (m * (N + K * H) * C) with (N * (C * m) + K * (H * (C * m))) by ring. lia.
Qed.
End Count1.

Section Total.
Variable n : nat.
Variable next : list Z -> list (list Z) -> query.
Variable finish : list Z -> list (list Z) -> list Z * list Z.
Variable exact : list Z -> list Z -> list Z -> list Z -> bool.
Local Notation pk s := (eencode (emul s ebase)).
Local Notation fin s := (fun st c => final (finish (pk s)) exact (pk s) (emul s ebase) st c).
Lemma own_value : forall s, lsum (fun c => b2z (own_wins n (next (pk s)) (finish (pk s)) exact s c)) (vectors (list_prod (strings 114) (strings 114)) (S n)) =
  value (own_step s (next (pk s))) (fun st coin => fin s st (fst coin)) (list_prod (strings 114) (strings 114)) n (View [] [] []).
Proof.
  intro s. unfold value. apply lsum_ext. intros c I. unfold own_wins, own_end. rewrite (play_fold _ _ _ _ ([], []) n _ c (vectors_length _ _ _ I)). reflexivity.
Qed.
Lemma sim_value : forall s, lsum (fun c => b2z (sim_game n next finish exact (emul s ebase) c)) (vectors (list_prod (strings 114) (below q448)) (S n)) =
  value (sim_step (next (pk s)) (emul s ebase)) (fun st coin => fin s st (fst coin)) (list_prod (strings 114) (below q448)) n (View [] [] []).
Proof.
  intro s. unfold value. apply lsum_ext. intros c I. unfold sim_game, sim_wins, sim_end. rewrite (play_fold _ _ _ _ ([], 0) n _ c (vectors_length _ _ _ I)). reflexivity.
Qed.
Lemma tally_b2z : forall (T : Type) (f : T -> bool) l, tally f l = lsum (fun x => b2z (f x)) l.
Proof. intros T f l. apply lsum_tally. Qed.
Theorem total : let N := 256 ^ 114 in let L := N / q448 + 1 in let K := Z.of_nat (length seeds) in
  tally (fun w => real_game n next finish exact (fst w) (fst (snd w)) (snd (snd w)))
    (list_prod seeds (list_prod (strings 114) (vectors (list_prod (strings 114) (strings 114)) (S n)))) <=
  K * (L ^ Z.of_nat (S n) * tally (fun w => sim_game n next finish exact (emul (secret_scalar (fst w)) ebase) (snd w))
         (list_prod (strings 114) (vectors (list_prod (strings 114) (below q448)) (S n))) +
       N * (Z.of_nat n * Z.of_nat n * (L * N * (N * q448 * L) ^ Z.of_nat n))) +
  Z.of_nat (S n) * (N + K * 256 ^ 57) * (N * N) ^ Z.of_nat (S n).
Proof.
  intros N L K. change (256 ^ 114 / q448) with share in L.
  rewrite !tally_b2z, !lsum_prod. cbn [fst snd].
  pose proof (count1 n next finish exact _ _ _ _ eq_refl eq_refl eq_refl eq_refl) as C1. rewrite vectors_count, prod_length, Nat2Z.inj_mul, strings_total in C1. fold N K in C1.
  assert (H57 : Z.of_nat (length (strings 57)) = 256 ^ 57) by (rewrite <- tally_all; exact (count_all 57)). rewrite H57 in C1.
  rewrite (lsum_ext _ (fun x => lsum (fun d => lsum (fun c => b2z (real_game n next finish exact x d c)) (vectors (list_prod (strings 114) (strings 114)) (S n))) (strings 114)) seeds)
    by (intros k _; rewrite lsum_prod; reflexivity).
  eapply Z.le_trans; [ exact C1 | ]. apply Z.add_le_mono_r. apply Z.mul_le_mono_nonneg_l; [ apply Nat2Z.is_nonneg | ].
  assert (S1 : forall d, In d (strings 114) -> lsum (fun c => b2z (own_wins n (next (pk (secret_scalar d))) (finish (pk (secret_scalar d))) exact (secret_scalar d) c)) (vectors (list_prod (strings 114) (strings 114)) (S n)) <=
    L ^ Z.of_nat (S n) * lsum (fun c => b2z (sim_game n next finish exact (emul (secret_scalar d) ebase) c)) (vectors (list_prod (strings 114) (below q448)) (S n)) +
    Z.of_nat n * Z.of_nat n * (L * N * (N * q448 * L) ^ Z.of_nat n)).
  { intros d _. rewrite own_value, sim_value.
    exact (hop2 (secret_scalar d) (next (pk (secret_scalar d))) (fin (secret_scalar d)) _ _ eq_refl eq_refl N q448 L eq_refl eq_refl eq_refl n (View [] [] [])). }
  eapply Z.le_trans; [ exact (lsum_le _ _ _ S1) | ]. rewrite lsum_add, lsum_mul, lsum_const, strings_total. apply Z.le_refl.
Qed.
(* over all keys *)
Theorem average : (forall d a sig m, In d (strings 114) -> In a (strings 114) -> exact (eencode (emul (secret_scalar d) ebase)) a sig m = true -> bytes sig /\ (exists R, denotes (firstn 57 sig) R) /\
    ~ false_positive (table_xof [(forged_input (emul (secret_scalar d) ebase) (sig, m), a)]) (eencode (emul (secret_scalar d) ebase)) sig m) ->
  let coins := vectors (list_prod (strings 114) (below q448)) (S n) in
  let wins := tally (fun w => sim_game n next finish exact (emul (secret_scalar (fst w)) ebase) (snd w)) (list_prod (strings 114) coins) in
  wins * wins <= 256 ^ 114 * (Z.of_nat (S n) * (tally (fun w => sim_game_reveals n next finish (emul (secret_scalar (fst w)) ebase) (fst (snd w)) (snd (snd w))) (list_prod (strings 114) (list_prod coins coins)) +
    wins * ((256 ^ 114 * q448) ^ Z.of_nat n * (q448 * (256 ^ 114 / q448 + 1))))).
Proof.
  intros HE coins wins. set (w := fun d => tally (sim_game n next finish exact (emul (secret_scalar d) ebase)) coins).
  set (g := fun d => tally (fun p => sim_game_reveals n next finish (emul (secret_scalar d) ebase) (fst p) (snd p)) (list_prod coins coins)).
  assert (EW : wins = lsum w (strings 114)) by (unfold wins, w; rewrite tally_b2z, lsum_prod; cbn [fst snd]; apply lsum_ext; intros d _; rewrite tally_b2z; reflexivity).
  assert (EG : tally (fun w => sim_game_reveals n next finish (emul (secret_scalar (fst w)) ebase) (fst (snd w)) (snd (snd w))) (list_prod (strings 114) (list_prod coins coins)) = lsum g (strings 114))
    by (unfold g; rewrite tally_b2z, lsum_prod; cbn [fst snd]; apply lsum_ext; intros d _; rewrite tally_b2z; reflexivity).
  rewrite EW, EG. rewrite <- strings_total at 1. eapply Z.le_trans; [ apply cauchy | ]. apply Z.mul_le_mono_nonneg_l; [ apply Nat2Z.is_nonneg | ].
  set (D := (256 ^ 114 * q448) ^ Z.of_nat n * (q448 * (256 ^ 114 / q448 + 1))).
  eapply Z.le_trans; [ apply (lsum_le _ (fun d => Z.of_nat (S n) * (g d + D * w d))) | ].
  - intros d I. rewrite (Z.mul_comm D). apply (sim_bound (emul (secret_scalar d) ebase) (emul_on _ _ ebase_on) (subgroup_base _) n (next (pk (secret_scalar d))) (finish (pk (secret_scalar d))) exact).
    intros a sig m Ia EX. exact (HE d a sig m I Ia EX).
  - rewrite lsum_mul, lsum_add, lsum_mul, (Z.mul_comm D). apply Z.le_refl.
Qed.
End Total.
Theorem sim_secret : forall s n next finish h h', sim_reveals n next finish (emul s ebase) h h' = true -> sim_extracted n next finish (emul s ebase) h h' = s mod q448.
Proof.
  intros s n next finish h h' E. unfold sim_reveals in E. set (x := sim_extracted n next finish (emul s ebase) h h') in *.
  assert (RX : 0 <= x < q448) by (unfold x, sim_extracted, qdiv; apply Z.mod_pos_bound; reflexivity). clearbody x. rewrite <- (Z.mod_small x q448 RX). apply base_inj.
  revert E. generalize (emul x ebase), (emul s ebase). intros (u, v) (u', v') E. cbv zeta in E. cbn [fst snd] in E. apply andb_prop in E as (E1 & E2). apply Z.eqb_eq in E1, E2.
  rewrite (F_eq _ _ E1), (F_eq _ _ E2). reflexivity.
Qed.
Theorem game_secret : forall s n next finish h h', sim_game_reveals n next finish (emul s ebase) h h' = true -> sim_game_extracted n next finish (emul s ebase) h h' = s mod q448.
Proof. intros s n next finish h h'. exact (sim_secret s n (next (eencode (emul s ebase))) (finish (eencode (emul s ebase))) h h'). Qed.
