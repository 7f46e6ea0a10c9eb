(* From the real game of Game.v to the simulated one. *)
From Coq Require Import ZArith List Bool Lia Permutation.
From Verif Require Import Base SpecField SpecBytes SpecScalar SpecCurve SpecDecode SpecEd448 SpecVerify SpecInternal SpecUniform SpecQueries SpecForger.
From Verif Require Import Bytes Errors Eddsa Goldilocks Game.
From Verif Require Import Field Edwards Isogeny CombMul BaseTables PrimeQ Decode Ed448 Order Equation Facts Sound Kernel Uniform Count Bind Protocol Structure SmallKeys Queries Transcripts Unbias Forking Forger GameFork.
Import ListNotations.
Open Scope Z_scope.
Local Opaque strings q448 below.

Definition b2z (b : bool) : Z := if b then 1 else 0.
(* games by recursion *)
Fixpoint play {S C : Type} (step : S -> C -> S) (fin : S -> C -> bool) (n : nat) (st : S) (coins : list C) : bool :=
  match coins with [] => false | c :: cs => match n with O => fin st c | Datatypes.S n' => play step fin n' (step st c) cs end end.
Lemma play_fold : forall (S C : Type) (step : S -> C -> S) fin d n st coins, length coins = Datatypes.S n ->
  play step fin n st coins = fin (fold_left step (firstn n coins) st) (nth n coins d).
Proof.
  intros S C step fin d. induction n as [ | n IH ]; intros st coins L; destruct coins as [ | c cs ]; try discriminate L; [ reflexivity | ].
  cbn [play firstn fold_left nth]. apply IH. cbn [length] in L. lia.
Qed.
Definition value {S C : Type} (step : S -> C -> S) (fin : S -> C -> bool) (ds : list C) (n : nat) (st : S) : Z :=
  lsum (fun h => b2z (play step fin n st h)) (vectors ds (Datatypes.S n)).
Lemma value_0 : forall (S C : Type) (step : S -> C -> S) fin ds st, value step fin ds 0 st = lsum (fun c => b2z (fin st c)) ds.
Proof. intros. unfold value. cbn [vectors]. rewrite lsum_flat. apply lsum_ext. intros c _. cbn [map lsum play]. apply Z.add_0_r. Qed.
Lemma value_S : forall (S C : Type) (step : S -> C -> S) fin ds n st, value step fin ds (Datatypes.S n) st = lsum (fun c => value step fin ds n (step st c)) ds.
Proof.
  intros. unfold value. change (vectors ds (Datatypes.S (Datatypes.S n))) with (flat_map (fun d => map (cons d) (vectors ds (Datatypes.S n))) ds).
  rewrite lsum_flat. apply lsum_ext. intros c _. rewrite lsum_map. reflexivity.
Qed.
Lemma value_range : forall (S C : Type) (step : S -> C -> S) fin ds n st, 0 <= value step fin ds n st <= Z.of_nat (length ds) ^ Z.of_nat (Datatypes.S n).
Proof.
  intros. unfold value. split; [ apply lsum_nonneg; intros h _; unfold b2z; destruct (play _ _ _ _ h); lia | ]. rewrite <- vectors_count.
  eapply Z.le_trans; [ apply (lsum_le _ (fun _ => 1)); intros h _; unfold b2z; destruct (play _ _ _ _ h); lia | ]. rewrite lsum_const. lia.
Qed.

(* sums over the residues *)
Lemma lsum_perm : forall (T : Type) (f : T -> Z) l l', Permutation l l' -> lsum f l = lsum f l'.
Proof. intros T f l l' P. induction P; cbn [lsum]; lia. Qed.
Lemma shift_perm : forall t, Permutation (map (fun r => (r + t) mod q448) (below q448)) (below q448).
Proof.
  intro t. apply NoDup_Permutation_bis.
  - apply nodup_map; [ | apply below_nodup ]. intros u v Ru Rv E. apply (proj1 (in_below _ _)) in Ru. apply (proj1 (in_below _ _)) in Rv. rewrite <- (Z.mod_small u q448 Ru), <- (Z.mod_small v q448 Rv).
    replace u with (u + t - t) by ring. replace v with (v + t - t) by ring. rewrite Zminus_mod, E, <- Zminus_mod. reflexivity.
  - rewrite map_length. apply Nat.le_refl.
  - intros x I. apply in_map_iff in I as (r & <- & _). apply in_below. apply Z.mod_pos_bound. reflexivity.
Qed.
Lemma lsum_shift : forall f t, lsum (fun r => f ((r + t) mod q448)) (below q448) = lsum f (below q448).
Proof. intros f t. rewrite <- (lsum_perm _ f _ _ (shift_perm t)), lsum_map. reflexivity. Qed.
Lemma one_residue : forall r, 0 <= r < q448 -> forall f : Z -> Z, lsum (fun z => if z =? r then f z else 0) (below q448) = f r.
Proof.
  intros r R f. pose proof (below_nodup q448) as ND. assert (I : In r (below q448)) by (apply in_below; exact R). revert ND I. generalize (below q448). induction l as [ | z l IH ]; intros ND I; [ destruct I | ].
  cbn [lsum]. inversion ND as [ | ? ? NI ND' ]; subst. destruct (Z.eqb_spec z r) as [ -> | NE ].
  - rewrite (lsum_ext _ (fun _ => 0)), lsum_const; [ ring | ]. intros y Iy. destruct (Z.eqb_spec y r) as [ -> | ]; [ contradiction | reflexivity ].
  - destruct I as [ -> | I ]; [ contradiction | ]. rewrite (IH ND' I). ring.
Qed.
Lemma residues : forall f, (forall r, 0 <= r < q448 -> 0 <= f r) -> lsum (fun d => f (le_val d mod q448)) (strings 114) <= (share + 1) * lsum f (below q448).
Proof.
  intros f P. rewrite (lsum_ext _ (fun d => lsum (fun z => if z =? le_val d mod q448 then f z else 0) (below q448))).
  2:{ intros d _. rewrite one_residue; [ reflexivity | ]. apply Z.mod_pos_bound. reflexivity. }
  rewrite lsum_swap, <- lsum_mul. apply lsum_le. intros z I. apply (proj1 (in_below _ _)) in I.
  rewrite (lsum_ext _ (fun d => f z * (if le_val d mod q448 =? z then 1 else 0))).
  - rewrite lsum_mul, (Z.mul_comm (share + 1)). apply Z.mul_le_mono_nonneg_l; [ apply P; exact I | apply few_challenges ].
  - intros d _. rewrite (Z.eqb_sym z). destruct (_ =? _); ring.
Qed.
Lemma share_le : 256 ^ 114 <= (share + 1) * q448.
Proof. pose proof share_eq as E. pose proof (Z.mod_pos_bound (256 ^ 114) q448 ltac:(reflexivity)) as M. revert E M. generalize (256 ^ 114), (256 ^ 114 mod q448), share. intros a b c. nia. Qed.

(* at most one element passes a test *)
Lemma at_most_one : forall (T : Type) (f : T -> bool) l, NoDup l -> (forall x y, In x l -> In y l -> f x = true -> f y = true -> x = y) -> lsum (fun x => b2z (f x)) l <= 1.
Proof.
  intros T f. induction l as [ | x l IH ]; intros ND H; [ cbn [lsum]; lia | ]. cbn [lsum]. inversion ND as [ | ? ? NI ND' ]; subst. destruct (f x) eqn:E.
  - rewrite (lsum_ext _ (fun _ => 0)), lsum_const; [ cbn [b2z]; lia | ]. intros y I. destruct (f y) eqn:F; [ | reflexivity ]. exfalso. apply NI.
    rewrite (H x y (or_introl eq_refl) (or_intror I) E F). exact I.
  - cbn [b2z]. apply IH; [ exact ND' | ]. intros y z Iy Iz. apply H; right; assumption.
Qed.
Definition present (x : list Z) (T : list (list Z * list Z)) : bool := match recall x T with Some _ => true | None => false end.
Lemma few_present : forall (D : Type) (f : D -> list Z) l, NoDup l -> (forall x y, In x l -> In y l -> f x = f y -> x = y) ->
  forall T, lsum (fun r => b2z (present (f r) T)) l <= Z.of_nat (length T).
Proof.
  intros D f l ND H. induction T as [ | (y, a) T IH ]; [ unfold present; cbn [recall length]; rewrite (lsum_ext _ (fun _ => 0)), lsum_const by reflexivity; lia | ].
  eapply Z.le_trans; [ apply (lsum_le _ (fun r => b2z (same_string (f r) y) + b2z (present (f r) T))) | ].
  - intros r _. unfold present. cbn [recall]. destruct (same_string (f r) y); [ | destruct (recall (f r) T); cbn [b2z]; lia ]. destruct (recall (f r) T); cbn [b2z]; lia.
  - rewrite lsum_add. cbn [length]. rewrite Nat2Z.inj_succ. assert (K : lsum (fun r => b2z (same_string (f r) y)) l <= 1); [ | lia ]. apply at_most_one; [ exact ND | ].
    intros u v Iu Iv E F. apply same_string_eq in E, F. apply H; [ exact Iu | exact Iv | congruence ].
Qed.

Section Hop2.
Variable s : Z.
Local Notation A := (emul s ebase).
Variable next : list (list Z) -> query.
Variable fin : view -> list Z -> bool.
Definition nonce_input (m : list Z) (r : Z) : list Z := rfc_dom ++ eencode (emul r ebase) ++ eencode A ++ m.
(* the signer with a nonce of its own *)
Definition own_sign (st : view) (m c : list Z) (r : Z) : view :=
  let x := nonce_input m r in let a := sampled (known st) x c in let sig := eencode (emul r ebase) ++ le_bytes 57 ((r + le_val a * s) mod q448) in
  View (tab st ++ [[(x, a)]]) (answers st ++ [sig]) (signed st ++ [(m, sig)]).
Definition own_step (st : view) (coin : list Z * list Z) : view :=
  match next (answers st) with
  | Hash x => ask_hash st x (fst coin)
  | Sign m => if is_signed st m then refuse st else own_sign st m (fst coin) (le_val (snd coin))
  end.
Lemma own_mod : forall st m c r, own_sign st m c r = own_sign st m c (r mod q448).
Proof.
  intros st m c r. unfold own_sign, nonce_input.
  assert (E : emul (r mod q448) ebase = emul r ebase) by (apply emul_mod; first [ exact ebase_on | exact order_ok | discriminate ]).
  rewrite E. cbv zeta. rewrite Z.add_mod_idemp_l by discriminate. reflexivity.
Qed.
Lemma own_fresh : forall st m c r, 0 <= r < q448 -> recall (nonce_input m r) (known st) = None -> own_sign st m c r = sim_sign A st m c ((r + le_val c * s) mod q448).
Proof.
  intros st m c r R F. unfold own_sign, sim_sign, sampled. rewrite F. cbv zeta. unfold nonce_input.
  assert (E : eadd (emul ((r + le_val c * s) mod q448) ebase) (eneg (emul (le_val c) A)) = emul r ebase).
  { rewrite emul_mod by (first [ exact ebase_on | exact order_ok | discriminate ]). rewrite emul_add by exact ebase_on. rewrite <- (emul_mul (le_val c) s ebase ebase_on).
    pose proof (emul_on r ebase ebase_on) as C1. pose proof (emul_on (le_val c * s) ebase ebase_on) as C2. rewrite eadd_assoc, eadd_neg, eadd_0_r; try assumption; [ reflexivity | ]. apply eneg_on. exact C2. }
  rewrite E. reflexivity.
Qed.
Lemma nonce_inj : forall m r r', 0 <= r < q448 -> 0 <= r' < q448 -> nonce_input m r = nonce_input m r' -> r = r'.
Proof.
  intros m r r' R R' E. unfold nonce_input in E. apply app_inv_head in E. apply app_len_inj in E as (E & _); [ | rewrite !eencode_len; reflexivity ].
  apply eencode_inj in E; [ | apply emul_on; exact ebase_on | apply emul_on; exact ebase_on ]. apply base_inj in E. rewrite !Z.mod_small in E by assumption. exact E.
Qed.
Variable ST : list (list Z).
Variable BQ : list Z.
Hypothesis EST : ST = strings 114.
Hypothesis EBQ : BQ = below q448.
Local Notation DD := (list_prod ST ST).
Local Notation DS := (list_prod ST BQ).
Local Notation V1 := (value own_step (fun st coin => fin st (fst coin)) DD).
Local Notation V2 := (value (sim_step next A) (fun st coin => fin st (fst coin)) DS).
Variables N Q lam : Z.
Hypothesis EN : N = 256 ^ 114.
Hypothesis EQ : Q = q448.
Hypothesis EL : lam = share + 1.
Lemma ST_total : Z.of_nat (length ST) = N.
Proof. rewrite EST, EN. exact strings_total. Qed.
Lemma BQ_total : Z.of_nat (length BQ) = Q.
Proof. rewrite EBQ, EQ. exact below_total. Qed.
Lemma BQ_in : forall r, In r BQ -> 0 <= r < q448.
Proof. intros r I. rewrite EBQ in I. exact (proj1 (in_below _ _) I). Qed.
Lemma BQ_residues : forall f : Z -> Z, (forall r, 0 <= r < q448 -> 0 <= f r) -> lsum (fun d => f (le_val d mod q448)) ST <= lam * lsum f BQ.
Proof. rewrite EST, EBQ, EL. exact residues. Qed.
Lemma BQ_shift : forall (f : Z -> Z) t, lsum (fun r => f ((r + t) mod q448)) BQ = lsum f BQ.
Proof. rewrite EBQ. exact lsum_shift. Qed.
Lemma BQ_nodup : NoDup BQ.
Proof. rewrite EBQ. apply below_nodup. Qed.
Lemma DD_total : Z.of_nat (length DD) = N * N.
Proof. rewrite prod_length, Nat2Z.inj_mul, ST_total. reflexivity. Qed.
Definition loss (n : nat) (t : Z) : Z := Z.of_nat n * (t + Z.of_nat n) * (lam * N * (N * Q * lam) ^ Z.of_nat n).
Lemma params : 0 < N /\ 0 < Q /\ 0 < lam /\ N <= lam * Q.
Proof.
  rewrite EN, EQ, EL. split; [ reflexivity | ]. split; [ reflexivity | ]. split; [ | exact share_le ].
  pose proof share_le as K. assert (0 < 256 ^ 114) by reflexivity. assert (0 < q448) by reflexivity. revert K H H0. generalize (256 ^ 114), q448, (share + 1). intros a b c. nia.
Qed.
Lemma known_step_length : forall st e a m, length (known (View (tab st ++ [e]) a m)) = (length (known st) + length e)%nat.
Proof. intros st e a m. unfold known. cbn [tab]. rewrite concat_app, app_length. cbn [concat]. rewrite app_nil_r. reflexivity. Qed.
(* arithmetic of one step *)
Lemma loss_step : forall n t, 0 <= t -> N * Q * lam * loss n (t + 1) + t * (lam * N) * (N * Q * lam) ^ Z.of_nat (S n) <= loss (S n) t.
Proof.
  intros n t T. destruct params as (PN & PQ & PL & _). unfold loss. rewrite Nat2Z.inj_succ, Z.pow_succ_r by lia. set (D := N * Q * lam) in *. set (w := D ^ Z.of_nat n) in *. set (k := Z.of_nat n) in *.
  assert (0 <= k) by (unfold k; lia). assert (0 <= w) by (apply Z.pow_nonneg; unfold D; nia). assert (0 < lam * N) by nia. assert (0 < D) by (unfold D; nia).
  set (b := lam * N) in *. clearbody b w k D.
  replace (D * (k * (t + 1 + k) * (b * w)) + t * b * (D * w)) with ((k * (t + 1 + k) + t) * (b * (D * w))) by ring.
  apply Z.mul_le_mono_nonneg_r; [ | nia ]. apply Z.mul_nonneg_nonneg; [ lia | nia ].
Qed.
Lemma loss_mono : forall n t t', 0 <= t <= t' -> loss n t <= loss n t'.
Proof.
  intros n t t' T. destruct params as (PN & PQ & PL & _). unfold loss. assert (0 <= (N * Q * lam) ^ Z.of_nat n) by (apply Z.pow_nonneg; nia).
  apply Z.mul_le_mono_nonneg_r; [ nia | ]. apply Z.mul_le_mono_nonneg_l; lia.
Qed.
Lemma loss_nonneg : forall n t, 0 <= t -> 0 <= loss n t.
Proof.
  intros n t T. destruct params as (PN & PQ & PL & _). unfold loss. assert (0 <= (N * Q * lam) ^ Z.of_nat n) by (apply Z.pow_nonneg; nia). apply Z.mul_nonneg_nonneg; nia.
Qed.
(* a step whose second coin is not used *)
Lemma blind : forall n (f1 f2 : list Z -> Z) t, 0 <= t -> (forall c, In c ST -> 0 <= f2 c) ->
  (forall c, In c ST -> f1 c <= lam ^ Z.of_nat (S n) * f2 c + loss n (t + 1)) ->
  lsum (fun d => f1 (fst d)) DD <= lam ^ Z.of_nat (S (S n)) * lsum (fun d => f2 (fst d)) DS + loss (S n) t.
Proof.
  intros n f1 f2 t T P2 H. destruct params as (PN & PQ & PL & PLE). rewrite !lsum_prod. cbn [fst].
  rewrite (lsum_ext _ (fun c => N * f1 c) ST); [ | intros c _; rewrite lsum_const, ST_total; reflexivity ].
  rewrite (lsum_ext (fun x => lsum (fun _ => f2 x) BQ) (fun c => Q * f2 c) ST); [ | intros c _; rewrite lsum_const, BQ_total; reflexivity ].
  rewrite !lsum_mul.
  assert (S1 : lsum f1 ST <= lam ^ Z.of_nat (S n) * lsum f2 ST + N * loss n (t + 1)).
  { eapply Z.le_trans; [ exact (lsum_le _ _ _ H) | ]. rewrite lsum_add, lsum_mul, lsum_const, ST_total. apply Z.le_refl. }
  assert (S2 : 0 <= lsum f2 ST) by (apply lsum_nonneg; exact P2).
  pose proof (loss_step n t T) as LS. assert (L0 : 0 <= loss n (t + 1)) by (apply loss_nonneg; lia).
  rewrite (Nat2Z.inj_succ (S n)), (Z.pow_succ_r lam) by lia. set (P := lam ^ Z.of_nat (S n)) in *. assert (0 <= P) by (apply Z.pow_nonneg; lia).
  assert (0 <= t * (lam * N) * (N * Q * lam) ^ Z.of_nat (S n)) by (apply Z.mul_nonneg_nonneg; [ nia | apply Z.pow_nonneg; nia ]).
  set (u := lsum f1 ST) in *. set (v := lsum f2 ST) in *. set (w := t * (lam * N) * (N * Q * lam) ^ Z.of_nat (S n)) in *.
  assert (K1 : N * u <= N * (P * v) + N * (N * loss n (t + 1))) by nia.
  assert (K2 : N * (P * v) <= lam * Q * (P * v)) by (apply Z.mul_le_mono_nonneg_r; [ nia | exact PLE ]).
  assert (K3 : N * (N * loss n (t + 1)) <= N * (lam * Q * loss n (t + 1))) by (apply Z.mul_le_mono_nonneg_l; [ lia | ]; apply Z.mul_le_mono_nonneg_r; [ exact L0 | exact PLE ]).
  replace (lam * P * (Q * v)) with (lam * Q * (P * v)) by ring. replace (N * Q * lam * loss n (t + 1)) with (N * (lam * Q * loss n (t + 1))) in LS by ring. lia.
Qed.
Theorem hop2 : forall n st, V1 n st <= lam ^ Z.of_nat (S n) * V2 n st + loss n (Z.of_nat (length (known st))).
Proof.
  destruct params as (PN & PQ & PL & PLE). induction n as [ | n IH ]; intro st.
  - rewrite !value_0, !lsum_prod. cbn [fst].
    rewrite (lsum_ext _ (fun c => N * b2z (fin st c)) ST); [ | intros c _; rewrite lsum_const, ST_total; reflexivity ].
    rewrite (lsum_ext (fun x => lsum (fun _ => b2z (fin st x)) BQ) (fun c => Q * b2z (fin st c)) ST); [ | intros c _; rewrite lsum_const, BQ_total; reflexivity ].
    rewrite !lsum_mul. assert (0 <= lsum (fun x => b2z (fin st x)) ST) by (apply lsum_nonneg; intros c _; destruct (fin st c); cbn [b2z]; lia).
    unfold loss. change (Z.of_nat 1) with 1. change (Z.of_nat 0) with 0. rewrite Z.pow_1_r, !Z.mul_0_l, Z.add_0_r, Z.mul_assoc. apply Z.mul_le_mono_nonneg_r; assumption.
  - rewrite !value_S. set (t := Z.of_nat (length (known st))). assert (T : 0 <= t) by (unfold t; lia).
    destruct (next (answers st)) as [ x | m ] eqn:Q0; [ | destruct (is_signed st m) eqn:Q1 ].
    + rewrite (lsum_ext _ (fun d => V1 n (ask_hash st x (fst d))) DD) by (intros d _; unfold own_step; rewrite Q0; reflexivity).
      rewrite (lsum_ext _ (fun d => V2 n (ask_hash st x (fst d))) DS) by (intros d _; unfold sim_step; rewrite Q0; reflexivity).
      apply (blind n (fun c => V1 n (ask_hash st x c)) (fun c => V2 n (ask_hash st x c)) t T); [ intros c _; apply value_range | ]. intros c _. eapply Z.le_trans; [ apply IH | ].
      unfold ask_hash. rewrite known_step_length. cbn [length]. rewrite Nat2Z.inj_add. apply Z.le_refl.
    + rewrite (lsum_ext _ (fun d => V1 n (refuse st)) DD) by (intros d _; unfold own_step; rewrite Q0, Q1; reflexivity).
      rewrite (lsum_ext _ (fun d => V2 n (refuse st)) DS) by (intros d _; unfold sim_step; rewrite Q0, Q1; reflexivity).
      apply (blind n (fun c => V1 n (refuse st)) (fun c => V2 n (refuse st)) t T); [ intros c _; apply value_range | ]. intros c _. eapply Z.le_trans; [ apply IH | ].
      apply Z.add_le_mono_l. apply loss_mono. unfold refuse. rewrite known_step_length. cbn [length]. fold t. rewrite Nat.add_0_r. fold t. lia.
    + rewrite (lsum_ext _ (fun d => V1 n (own_sign st m (fst d) (le_val (snd d) mod q448))) DD) by (intros d _; unfold own_step; rewrite Q0, Q1, own_mod; reflexivity).
      rewrite (lsum_ext _ (fun d => V2 n (sim_sign A st m (fst d) (snd d))) DS) by (intros d _; unfold sim_step; rewrite Q0, Q1; reflexivity).
      rewrite !lsum_prod. cbn [fst snd].
      set (F := fun c r => V1 n (own_sign st m c r)). set (G := fun c z => V2 n (sim_sign A st m c z)).
      assert (S1 : forall c, In c ST -> lsum (fun d => F c (le_val d mod q448)) ST <=
        lam * (lam ^ Z.of_nat (S n) * lsum (G c) BQ + Q * loss n (t + 1) + t * (N * N) ^ Z.of_nat (S n))).
      { intros c _. eapply Z.le_trans; [ apply BQ_residues; intros r _; apply value_range | ]. apply Z.mul_le_mono_nonneg_l; [ lia | ].
        eapply Z.le_trans; [ apply (lsum_le _ (fun r => (lam ^ Z.of_nat (S n) * G c ((r + le_val c * s) mod q448) + loss n (t + 1)) + (N * N) ^ Z.of_nat (S n) * b2z (present (nonce_input m r) (known st)))) | ].
        - intros r R. apply BQ_in in R. unfold present. destruct (recall (nonce_input m r) (known st)) eqn:RC; cbn [b2z].
          + pose proof (value_range _ _ own_step (fun st coin => fin st (fst coin)) DD n (own_sign st m c r)) as (_ & VR). rewrite DD_total in VR. fold (F c r) in VR.
            assert (0 <= G c ((r + le_val c * s) mod q448)) by apply value_range. assert (0 <= loss n (t + 1)) by (apply loss_nonneg; lia). assert (0 <= lam ^ Z.of_nat (S n)) by (apply Z.pow_nonneg; lia). nia.
          + rewrite Z.mul_0_r, Z.add_0_r. unfold F, G. rewrite (own_fresh st m c r R RC). eapply Z.le_trans; [ apply IH | ]. apply Z.add_le_mono_l.
            unfold sim_sign. rewrite known_step_length. cbn [length]. rewrite Nat2Z.inj_add. apply Z.le_refl.
        - rewrite !lsum_add, !lsum_mul, lsum_const, BQ_total. rewrite (BQ_shift (G c) (le_val c * s)). apply Z.add_le_mono_l.
          rewrite (Z.mul_comm t). apply Z.mul_le_mono_nonneg_l; [ apply Z.pow_nonneg; nia | ]. apply (few_present Z (nonce_input m) BQ); [ apply BQ_nodup | ].
          intros r r' R R' E. apply BQ_in in R. apply BQ_in in R'. exact (nonce_inj m r r' R R' E). }
      eapply Z.le_trans; [ exact (lsum_le _ _ _ S1) | ]. rewrite lsum_mul, !lsum_add, lsum_mul, !lsum_const, ST_total.
      set (v := lsum (fun x => lsum (G x) BQ) ST). 
      rewrite (Nat2Z.inj_succ (S n)), (Z.pow_succ_r lam) by lia. pose proof (loss_step n t T) as LS. 
      assert (DP : (N * N) ^ Z.of_nat (S n) <= (N * Q * lam) ^ Z.of_nat (S n)) by (apply Z.pow_le_mono_l; nia).
      set (P := lam ^ Z.of_nat (S n)) in *. set (d1 := (N * N) ^ Z.of_nat (S n)) in *. set (d2 := (N * Q * lam) ^ Z.of_nat (S n)) in *. set (L := loss n (t + 1)) in *. set (L' := loss (S n) t) in *.
      change (lsum (fun x => lsum (fun y => V2 n (sim_sign A st m x y)) BQ) ST) with v. clearbody P d1 d2 L L' v t.
      assert (K : lam * N * (t * d1) <= lam * N * (t * d2)) by (apply Z.mul_le_mono_nonneg_l; [ nia | ]; apply Z.mul_le_mono_nonneg_l; assumption).
      replace (lam * (P * v + N * (Q * L) + N * (t * d1))) with (lam * P * v + N * Q * lam * L + lam * N * (t * d1)) by ring. replace (t * (lam * N) * d2) with (lam * N * (t * d2)) in LS by ring. lia.
Qed.
End Hop2.
