(* How often nonces or public keys repeat, when the hash answers at random. *)
From Coq Require Import ZArith List Bool Lia.
From Verif Require Import Base SpecField SpecBytes SpecScalar SpecCurve SpecDecode SpecEd448 SpecVerify SpecInternal SpecUniform SpecQueries SpecForger SpecRepeat.
From Verif Require Import Bytes Errors ExtendedPoint Eddsa Goldilocks Lib Game.
From Verif Require Import Field Edwards Isogeny CombMul BaseTables PrimeQ Decode Ed448 Order Equation Facts Sound Kernel Uniform Count Bind Protocol Structure SmallKeys Queries Transcripts Unbias Forking Forger GameFork GameHop GameReal Complete GameExpanded Api.
Import ListNotations.
Open Scope Z_scope.
Local Opaque strings q448 below eencode emul.

Lemma repeats_iff : forall l, repeats l = false <-> NoDup l.
Proof.
  induction l as [ | x t IH ]; cbn [repeats]; [ split; [ intros _; constructor | reflexivity ] | ]. rewrite orb_false_iff, IH, NoDup_cons_iff.
  assert (E : existsb (same_string x) t = false <-> ~ In x t); [ | rewrite E; reflexivity ].
  rewrite <- not_true_iff_false, existsb_exists. split; intros H K; apply H; [ exists x; split; [ exact K | apply same_refl ] | ].
  destruct K as (y & I & E). apply same_string_eq in E. subst y. exact I.
Qed.
Section Birthday.
Context {D : Type}.
Variables (ds : list D) (f : D -> list Z) (kappa : Z).
Let N : Z := Z.of_nat (length ds).
Hypothesis few : forall s, lsum (fun d => b2z (same_string s (f d))) ds <= kappa.
Lemma kappa_nonneg : 0 <= kappa.
Proof. eapply Z.le_trans; [ | exact (few []) ]. apply lsum_nonneg. intros d _. apply b2z_nonneg. Qed.
Lemma hit : forall s k, N * lsum (fun h => b2z (existsb (same_string s) (map f h))) (vectors ds k) <= Z.of_nat k * kappa * N ^ Z.of_nat k.
Proof.
  intro s. pose proof (few s) as F. pose proof kappa_nonneg as P. assert (NN : 0 <= N) by (unfold N; lia).
  induction k as [ | k IH ]; [ cbn [vectors map existsb lsum b2z]; lia | ]. cbn [vectors]. rewrite lsum_flat.
  set (E := lsum (fun h => b2z (existsb (same_string s) (map f h))) (vectors ds k)) in *.
  eapply Z.le_trans with (N * lsum (fun d => N ^ Z.of_nat k * b2z (same_string s (f d)) + E) ds).
  - apply Z.mul_le_mono_nonneg_l; [ exact NN | ]. apply lsum_le. intros d _. rewrite lsum_map.
    eapply Z.le_trans; [ apply (lsum_le _ (fun h => b2z (same_string s (f d)) + b2z (existsb (same_string s) (map f h)))) | ].
    + intros h _. cbn [map existsb]. destruct (same_string s (f d)), (existsb (same_string s) (map f h)); cbn [orb b2z]; lia.
    + rewrite lsum_add, lsum_const, vectors_count. fold N E. lia.
  - rewrite lsum_add, lsum_mul, lsum_const. fold N. rewrite Nat2Z.inj_succ, Z.pow_succ_r by lia. assert (0 <= N ^ Z.of_nat k) by (apply Z.pow_nonneg; exact NN).
    assert (N ^ Z.of_nat k * lsum (fun x => b2z (same_string s (f x))) ds <= N ^ Z.of_nat k * kappa) by (apply Z.mul_le_mono_nonneg_l; assumption). nia.
Qed.
Theorem birthday : forall k, 2 * N * lsum (fun h => b2z (repeats (map f h))) (vectors ds k) <= Z.of_nat k * (Z.of_nat k - 1) * kappa * N ^ Z.of_nat k.
Proof.
  pose proof kappa_nonneg as P. assert (NN : 0 <= N) by (unfold N; lia).
  induction k as [ | k IH ]; [ cbn [vectors map repeats lsum b2z]; lia | ]. cbn [vectors]. rewrite lsum_flat.
  set (E := lsum (fun h => b2z (repeats (map f h))) (vectors ds k)) in *. set (K := Z.of_nat k * kappa * N ^ Z.of_nat k) in *.
  assert (B : N * lsum (fun d => lsum (fun h => b2z (repeats (map f h))) (map (cons d) (vectors ds k))) ds <= N * (K + N * E)).
  { eapply Z.le_trans with (lsum (fun d => N * lsum (fun h => b2z (existsb (same_string (f d)) (map f h))) (vectors ds k) + N * E) ds).
    - rewrite <- lsum_mul. apply lsum_le. intros d _. rewrite lsum_map, <- Z.mul_add_distr_l. apply Z.mul_le_mono_nonneg_l; [ exact NN | ]. unfold E. rewrite <- lsum_add.
      apply lsum_le. intros h _. cbn [map repeats]. destruct (existsb (same_string (f d)) (map f h)), (repeats (map f h)); cbn [orb b2z]; lia.
    - eapply Z.le_trans; [ apply (lsum_le _ (fun _ => K + N * E)); intros d _; pose proof (hit (f d) k) as H; fold K in H; lia | ]. rewrite lsum_const. fold N. lia. }
  rewrite Nat2Z.inj_succ, Z.pow_succ_r by lia. unfold K in B. assert (0 <= N ^ Z.of_nat k) by (apply Z.pow_nonneg; exact NN). nia.
Qed.
End Birthday.

(* the strings with a given image *)
Lemma fiber : forall (D : Type) (ds : list D) (f : D -> list Z) (g : D -> Z) kappa, 0 <= kappa -> (forall d d', In d ds -> In d' ds -> f d = f d' -> g d = g d') ->
  (forall d, In d ds -> lsum (fun d' => b2z (g d' =? g d)) ds <= kappa) -> forall s, lsum (fun d => b2z (same_string s (f d))) ds <= kappa.
Proof.
  intros D ds f g kappa P I F s. destruct (existsb (fun d => same_string s (f d)) ds) eqn:E.
  - apply existsb_exists in E as (d & Id & E). apply same_string_eq in E. subst s. eapply Z.le_trans; [ | exact (F d Id) ]. apply lsum_le. intros d' Id'.
    destruct (same_string (f d) (f d')) eqn:S; [ | apply b2z_nonneg ]. apply same_string_eq in S. rewrite (I d' d Id' Id (eq_sym S)), Z.eqb_refl. apply Z.le_refl.
  - rewrite (lsum_ext _ (fun _ => 0)), lsum_const; [ lia | ]. intros d Id. destruct (same_string s (f d)) eqn:S; [ | reflexivity ]. exfalso.
    assert (K : existsb (fun d => same_string s (f d)) ds = true); [ | congruence ]. apply existsb_exists. exists d. split; assumption.
Qed.
Lemma recall_combine : forall xs (h : list (list Z)) T, NoDup xs -> length h = length xs -> map (fun x => recall x (combine xs h ++ T)) xs = map Some h.
Proof.
  induction xs as [ | x xs IH ]; intros [ | a h ] T ND L; try discriminate L; [ reflexivity | ]. apply NoDup_cons_iff in ND as (NI & ND). injection L as L. cbn [combine app map recall]. rewrite same_refl. f_equal.
  rewrite <- (IH h T ND L). apply map_ext_in. intros y I. rewrite (same_false y x); [ reflexivity | ]. intros ->. contradiction.
Qed.
Lemma table_all : forall U xs h, map (fun x => recall x U) xs = map Some h -> (forall a : list Z, In a h -> length a = 114%nat) -> map (fun x => table_xof U x 114) xs = h.
Proof.
  intros U. induction xs as [ | x xs IH ]; intros [ | a h ] E HA; try discriminate E; [ reflexivity | ]. cbn [map] in *. injection E as E1 E2. f_equal.
  - apply table_at; [ exact E1 | exact (HA a (or_introl eq_refl)) ].
  - apply IH; [ exact E2 | intros b I; exact (HA b (or_intror I)) ].
Qed.
Lemma combine_bytes : forall xs (h : list (list Z)), (forall a, In a h -> bytes a) -> bytes_table (combine xs h).
Proof. intros xs h B x a I. apply B. exact (in_combine_r _ _ _ _ I). Qed.

(* nonces *)
Definition the_R (H : list Z -> nat -> list Z) (key m : list Z) : list Z := match ed448_sign H key m with Some sig => firstn 57 sig | None => [] end.
Lemma the_R_eq : forall H, is_xof H -> forall key m, length key = 57%nat -> bytes key -> the_R H key m = eencode (emul (le_val (H (nonce_input H key m) 114%nat)) ebase).
Proof.
  intros H X key m L B. unfold the_R. rewrite sign_ok by assumption. unfold nonce_input, rfc_sign, rfc_sign_with. destruct (enc_sign key); cbv zeta; rewrite firstn_app, eencode_len, Nat.sub_diag, firstn_O, app_nil_r;
    apply firstn_all2; rewrite eencode_len; apply Nat.le_refl.
Qed.
Lemma nonce_fiber : forall s, lsum (fun d => b2z (same_string s (eencode (emul (le_val d) ebase)))) (strings 114) <= share + 1.
Proof.
  apply (fiber _ _ _ (fun d => le_val d mod q448)); [ apply share_nonneg | | intros d _; exact (few_challenges (le_val d mod q448)) ].
  intros d d' _ _ E. apply base_inj. apply eencode_inj; [ apply emul_on; exact ebase_on | apply emul_on; exact ebase_on | exact E ].
Qed.
Section Nonces.
Variables (key prefix : list Z) (T0 T : list (list Z * list Z)) (ms : list (list Z)).
Hypothesis KL : length key = 57%nat.
Hypothesis KB : bytes key.
Hypothesis ND : NoDup ms.
Hypothesis B0 : bytes_table T0.
Hypothesis BT : bytes_table T.
Local Notation input := (fun m => rfc_dom ++ prefix ++ m).
Local Notation tabl := (fun h => T0 ++ combine (map input ms) h ++ T).
Hypothesis pre : forall h m, nonce_input (table_xof (tabl h)) key m = input m.
Hypothesis fresh : forall m, recall (input m) T0 = None.
Lemma nonces_of : forall h, In h (vectors (strings 114) (length ms)) -> map (the_R (table_xof (tabl h)) key) ms = map (fun a => eencode (emul (le_val a) ebase)) h.
Proof.
  intros h IH. pose proof (vectors_length _ _ _ IH) as L. assert (HA : forall a, In a h -> length a = 114%nat /\ bytes a) by (intros a I; apply (proj1 (in_strings 114 a)); exact (vectors_in _ _ _ _ IH I)).
  assert (X : is_xof (table_xof (tabl h))).
  { apply table_is_xof. intros x a I. apply in_app_or in I as [ I | I ]; [ exact (B0 x a I) | ]. apply in_app_or in I as [ I | I ]; [ | exact (BT x a I) ]. revert I. apply combine_bytes. intros b I. exact (proj2 (HA b I)). }
  assert (NI : NoDup (map input ms)). { apply FinFun.Injective_map_NoDup; [ | exact ND ]. intros m m' E. apply app_inv_head in E. apply app_inv_head in E. exact E. }
  assert (G : map (fun x => table_xof (tabl h) x 114) (map input ms) = h).
  { apply table_all; [ | intros a I; exact (proj1 (HA a I)) ]. rewrite <- (recall_combine (map input ms) h T NI) by (rewrite map_length; exact L). apply map_ext_in.
    intros x I. apply in_map_iff in I as (m & <- & _). rewrite recall_app, fresh. reflexivity. }
  rewrite <- G at 2. rewrite !map_map. apply map_ext. intro m. rewrite (the_R_eq _ X) by assumption. rewrite pre. reflexivity.
Qed.
Lemma nonce_repeats : let n := Z.of_nat (length ms) in let N := 256 ^ 114 in
  2 * N * tally (fun h => repeats (map (the_R (table_xof (tabl h)) key) ms)) (vectors (strings 114) (length ms)) <= n * (n - 1) * (share + 1) * N ^ n.
Proof.
  intros n N. rewrite tally_b2z. rewrite (lsum_ext _ (fun h => b2z (repeats (map (fun a => eencode (emul (le_val a) ebase)) h)))) by (intros h I; rewrite (nonces_of h I); reflexivity).
  pose proof (birthday (strings 114) (fun a => eencode (emul (le_val a) ebase)) (share + 1) nonce_fiber (length ms)) as K. rewrite strings_total in K. exact K.
Qed.
End Nonces.
Theorem seed_nonces : forall key d T ms, In key seeds -> In d (strings 114) -> bytes_table T -> NoDup ms -> let n := Z.of_nat (length ms) in let N := 256 ^ 114 in
  2 * N * tally (fun h => repeats (map (the_R (table_xof ((key, d) :: combine (map (fun m => rfc_dom ++ skipn 57 d ++ m) ms) h ++ T)) key) ms)) (vectors (strings 114) (length ms)) <=
  n * (n - 1) * (256 ^ 114 / q448 + 1) * N ^ n.
Proof.
  intros key d T ms IK ID BT ND n N. apply (proj1 (seeds_in _)) in IK as (L & B & ES). apply (proj1 (in_strings 114 d)) in ID as (Ld & Bd).
  apply (nonce_repeats key (skipn 57 d) [(key, d)] T ms L B ND); [ intros x a [ E | [] ]; injection E as <- <-; exact Bd | exact BT | | ].
  - intros h m. unfold nonce_input. rewrite ES. rewrite (table_at _ key d 114); [ reflexivity | | exact Ld ]. cbn [app recall]. rewrite same_refl. reflexivity.
  - intro m. cbn [recall]. rewrite same_length; [ reflexivity | ]. rewrite !app_length, skipn_length, Ld, L. cbn [length rfc_dom]. lia.
Qed.
Theorem expanded_nonces : forall key T ms, In key expanded -> bytes_table T -> NoDup ms -> let n := Z.of_nat (length ms) in let N := 256 ^ 114 in
  2 * N * tally (fun h => repeats (map (the_R (table_xof (combine (map (fun m => rfc_dom ++ le_bytes 57 (secret_scalar key) ++ m) ms) h ++ T)) key) ms)) (vectors (strings 114) (length ms)) <=
  n * (n - 1) * (256 ^ 114 / q448 + 1) * N ^ n.
Proof.
  intros key T ms IK BT ND n N. apply (proj1 (expanded_in _)) in IK as (L & B & ES).
  apply (nonce_repeats key (le_bytes 57 (secret_scalar key)) [] T ms L B ND); [ intros x a [] | exact BT | | reflexivity ].
  intros h m. unfold nonce_input. rewrite ES. reflexivity.
Qed.

(* generated keys: w lists the keys and the answers of the hash for them *)
Definition the_key (H : list Z -> nat -> list Z) (rng : list Z) : list Z := match signing_random H rng with Some sk => as_bytes (get_verifying_key sk) | None => [] end.
Definition secret_of (x : list Z * list Z) : list Z := if enc_sign (fst x) then fst x else snd x.
Definition public_of (x : list Z * list Z) : list Z := eencode (emul (secret_scalar (secret_of x)) ebase).
Local Notation pairs57 := (list_prod (strings 57) (strings 114)).
Lemma digest_share : forall t, 0 <= t < 2 ^ 445 -> lsum (fun d => b2z (middle d =? t)) (strings 114) <= 256 ^ 57 * 2048.
Proof.
  intros t Ht. change 114%nat with (57 + 57)%nat. rewrite strings_split. rewrite (lsum_ext _ (fun u => 256 ^ 57 * b2z (middle u =? t))).
  - rewrite lsum_mul. apply Z.mul_le_mono_nonneg_l; [ apply Z.pow_nonneg; lia | ].
    rewrite <- (tally_b2z _ (fun u => middle u =? t)), tally_strings. change (256 ^ Z.of_nat 57) with (2 ^ 456). rewrite <- (bits_count_all t Ht). apply Z.eq_le_incl. apply zsum_ext. intros z Hz. rewrite middle_number by exact Hz. reflexivity.
  - intros u I. apply in_strings in I as (L & _). rewrite (lsum_ext _ (fun _ => b2z (middle u =? t))).
    + rewrite lsum_const, (total_n 57). reflexivity.
    + intros v _. unfold middle. rewrite firstn_app. replace (56 - length u)%nat with 0%nat by lia. rewrite firstn_O, app_nil_r. reflexivity.
Qed.
Lemma key_share : forall t, 0 <= t < 2 ^ 445 -> lsum (fun u => b2z (enc_sign u && (middle u =? t))) (strings 57) <= 1024.
Proof.
  intros t Ht. rewrite <- (tally_b2z _ (fun u => enc_sign u && (middle u =? t))), tally_strings. change (256 ^ Z.of_nat 57) with (2 ^ 456). rewrite <- (bits_count t Ht). apply Z.eq_le_incl. apply zsum_ext.
  intros z Hz. rewrite middle_number by exact Hz. destruct (key_number z Hz) as (-> & _). reflexivity.
Qed.
Lemma seed_share : lsum (fun u => b2z (negb (enc_sign u))) (strings 57) <= 2 ^ 455.
Proof.
  pose proof seeds_count as S. unfold seeds in S. rewrite <- (tally_b2z _ (fun u => negb (enc_sign u))). assert (K : forall l : list (list Z), tally (fun u => negb (enc_sign u)) l = Z.of_nat (length (filter (fun k => negb (enc_sign k)) l))).
  { clear. induction l as [ | a l IH ]; [ reflexivity | ]. cbn [tally filter]. destruct (negb (enc_sign a)); cbn [length]; lia. }
  rewrite K. revert S. generalize (Z.of_nat (length (filter (fun k => negb (enc_sign k)) (strings 57)))). intros z S. change (256 ^ 57) with (2 * 2 ^ 455) in S. lia.
Qed.
Lemma public_fiber : forall s, lsum (fun x => b2z (same_string s (public_of x))) pairs57 <= 2 ^ 923.
Proof.
  apply (fiber _ _ _ (fun x => middle (secret_of x))); [ discriminate | | ].
  - intros x x' _ _ E. unfold public_of in E. apply eencode_inj in E; [ | apply emul_on; exact ebase_on | apply emul_on; exact ebase_on ]. apply scalar_t_inj; [ apply middle_range | apply middle_range | exact E ].
  - intros x _. pose proof (middle_range (secret_of x)) as R. set (t := middle (secret_of x)) in *. clearbody t. rewrite lsum_prod.
    pose proof (digest_share t R) as K1. pose proof (key_share t R) as K2. pose proof seed_share as K3. pose proof strings_total as N.
    revert K1 K2 K3 N. generalize (strings 57) (strings 114). intros l1 l2 K1 K2 K3 N.
    eapply Z.le_trans with (lsum (fun u => 256 ^ 114 * b2z (enc_sign u && (middle u =? t)) + 256 ^ 57 * 2048 * b2z (negb (enc_sign u))) l1).
    + apply lsum_le. intros u _. unfold secret_of. cbn [fst snd]. destruct (enc_sign u); cbn [andb negb b2z].
      * rewrite lsum_const, N. lia.
      * lia.
    + rewrite lsum_add, !lsum_mul. change (2 ^ 923) with (256 ^ 114 * 1024 + 256 ^ 57 * 2048 * 2 ^ 455).
      apply Z.add_le_mono; apply Z.mul_le_mono_nonneg_l; first [ discriminate | assumption ].
Qed.
Lemma same_fiber : forall s, lsum (fun x => b2z (same_string s (fst x))) pairs57 <= 256 ^ 114.
Proof.
  intro s. rewrite lsum_prod. cbn [fst]. rewrite (lsum_ext _ (fun u => 256 ^ 114 * b2z (same_string s u))) by (intros u _; rewrite lsum_const, strings_total; reflexivity).
  rewrite lsum_mul, <- (tally_b2z _ (same_string s)). assert (K : tally (same_string s) (strings 57) <= 1).
  { destruct (existsb (same_string s) (strings 57)) eqn:E.
    - apply existsb_exists in E as (u & I & E). apply same_string_eq in E. subst u. apply (proj1 (in_strings 57 s)) in I as (L & B). rewrite (count_one 57 s L B). lia.
    - rewrite tally_b2z, (lsum_ext _ (fun _ => 0)), lsum_const; [ lia | ]. intros u I. destruct (same_string s u) eqn:S; [ | reflexivity ]. exfalso.
      assert (K : existsb (same_string s) (strings 57) = true); [ | congruence ]. apply existsb_exists. exists u. split; assumption. }
  revert K. generalize (tally (same_string s) (strings 57)). intros z K. assert (0 <= 256 ^ 114) by discriminate. nia.
Qed.
Lemma recall_pairs : forall (w T : list (list Z * list Z)) k d, NoDup (map fst w) -> In (k, d) w -> recall k (w ++ T) = Some d.
Proof.
  induction w as [ | (k', d') w IH ]; intros T k d ND I; [ destruct I | ]. cbn [map fst] in ND. apply NoDup_cons_iff in ND as (NI & ND). cbn [app recall]. destruct I as [ E | I ].
  - injection E as -> ->. rewrite same_refl. reflexivity.
  - rewrite same_false; [ exact (IH T k d ND I) | ]. intros ->. apply NI. apply in_map_iff. exists (k', d). split; [ reflexivity | exact I ].
Qed.
Lemma keys_of : forall w T n, bytes_table T -> In w (vectors pairs57 n) -> NoDup (map fst w) -> map (the_key (table_xof (w ++ T))) (map fst w) = map public_of w.
Proof.
  intros w T n BT IW ND. assert (HW : forall k d, In (k, d) w -> (length k = 57%nat /\ bytes k) /\ length d = 114%nat /\ bytes d).
  { intros k d I. apply (vectors_in _ _ _ _ IW) in I. apply in_prod_iff in I as (I1 & I2). split; [ exact (proj1 (in_strings 57 k) I1) | exact (proj1 (in_strings 114 d) I2) ]. }
  assert (X : is_xof (table_xof (w ++ T))). { apply table_is_xof. intros x a I. apply in_app_or in I as [ I | I ]; [ destruct (HW x a I) as (_ & _ & B); exact B | exact (BT x a I) ]. }
  rewrite map_map. apply map_ext_in. intros (k, d) I. cbn [fst]. destruct (HW k d I) as ((L & B) & Ld & Bd). unfold the_key, public_of, secret_of. cbn [fst snd].
  destruct (signing_from_slice_ok _ X k L B) as (sk & KP & _ & _ & _ & -> & _). destruct KP as (_ & _ & _ & _ & KP).
  rewrite (derive_public_ok _ X k L B) in KP. unfold rfc_public in KP. rewrite (table_at _ k d 114 (recall_pairs w T k d ND I) Ld) in KP. destruct (enc_sign k); congruence.
Qed.
Theorem generated_keys : forall n T, bytes_table T ->
  2 ^ 457 * tally (fun w => repeats (map (the_key (table_xof (w ++ T))) (map fst w))) (vectors pairs57 n) <=
  Z.of_nat n * (Z.of_nat n - 1) * (2 ^ 11 + 1) * (256 ^ 57 * 256 ^ 114) ^ Z.of_nat n.
Proof.
  intros n T BT. rewrite tally_b2z.
  pose proof (birthday pairs57 fst (256 ^ 114) same_fiber n) as K1. pose proof (birthday pairs57 public_of (2 ^ 923) public_fiber n) as K2.
  assert (EN : Z.of_nat (length pairs57) = 256 ^ 57 * 256 ^ 114) by (rewrite prod_length, Nat2Z.inj_mul, (total_n 57), strings_total; reflexivity).
  rewrite EN in K1, K2.
  assert (LE : lsum (fun w => b2z (repeats (map (the_key (table_xof (w ++ T))) (map fst w)))) (vectors pairs57 n) <=
    lsum (fun w => b2z (repeats (map fst w))) (vectors pairs57 n) + lsum (fun w => b2z (repeats (map public_of w))) (vectors pairs57 n)).
  { rewrite <- lsum_add. apply lsum_le. intros w IW. destruct (repeats (map fst w)) eqn:E.
    - pose proof (b2z_nonneg (repeats (map public_of w))). destruct (repeats (map (the_key _) _)); cbn [b2z] in *; lia.
    - apply repeats_iff in E. rewrite (keys_of w T n BT IW E). cbn [b2z]. lia. }
  revert LE K1 K2. generalize (lsum (fun w => b2z (repeats (map (the_key (table_xof (w ++ T))) (map fst w)))) (vectors pairs57 n)) (lsum (fun w => b2z (repeats (map fst w))) (vectors pairs57 n)) (lsum (fun w => b2z (repeats (map public_of w))) (vectors pairs57 n)).
  generalize ((256 ^ 57 * 256 ^ 114) ^ Z.of_nat n) (Z.of_nat n * (Z.of_nat n - 1)). intros P m a b c LE K1 K2.
  assert (K1' : 2 ^ 912 * (2 ^ 457 * b) <= 2 ^ 912 * (m * P)) by (change (2 * (256 ^ 57 * 256 ^ 114)) with (2 ^ 912 * 2 ^ 457) in K1; change (256 ^ 114) with (2 ^ 912) in K1; lia).
  assert (K2' : 2 ^ 912 * (2 ^ 457 * c) <= 2 ^ 912 * (m * 2 ^ 11 * P)) by (change (2 * (256 ^ 57 * 256 ^ 114)) with (2 ^ 912 * 2 ^ 457) in K2; change (2 ^ 923) with (2 ^ 912 * 2 ^ 11) in K2; lia).
  apply Z.mul_le_mono_pos_l in K1'; [ | reflexivity ]. apply Z.mul_le_mono_pos_l in K2'; [ | reflexivity ]. assert (2 ^ 457 * a <= 2 ^ 457 * (b + c)) by (apply Z.mul_le_mono_nonneg_l; [ discriminate | exact LE ]). lia.
Qed.
