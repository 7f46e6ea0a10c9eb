(* A forger which asks one question again and again and hands in zeros. *)
From Coq Require Import ZArith List Bool Lia.
From Verif Require Import Base SpecField SpecBytes SpecScalar SpecCurve SpecDecode SpecEd448 SpecVerify SpecInternal SpecUniform SpecProtocol SpecQueries SpecForger.
From Verif Require Import Bytes Errors Eddsa Goldilocks Game.
From Verif Require Import Field Edwards Isogeny CombMul BaseTables PrimeQ Decode Verify Ed448 Order Equation Facts Sound Kernel Uniform Count Bind Alias Api Samples Protocol Structure SmallKeys Queries Transcripts Unbias Forking Forger GameFork GameHop GameReal GameCase Complete GameExpanded GameExpandedCase Repeat Advantage.
Import ListNotations.
Open Scope Z_scope.
Local Opaque strings q448 below eencode emul.

Definition mute_next (seen : list (list Z)) : query := Hash [].
Definition mute_finish (seen : list (list Z)) : list Z * list Z := (repeat 0 114, []).
Lemma no_log : forall s, s mod q448 <> 0 -> same_point (emul 0 ebase) (emul s ebase) = false.
Proof. intros s H. apply not_true_iff_false. intro E. apply same_point_eq in E. apply base_inj in E. rewrite Z.mod_0_l in E by discriminate. apply H. symmetry. exact E. Qed.
Lemma mute_extracted : forall n A h h', sim_extracted n mute_next mute_finish A h h' = 0.
Proof.
  intros n A h h'. unfold sim_extracted. cbv zeta. unfold sim_response. assert (E : forall x, fst (mute_finish x) = repeat 0 114) by reflexivity. rewrite !E. rewrite Z.sub_diag. unfold qdiv. rewrite Z.mul_0_l. reflexivity.
Qed.
Lemma mute_reveals : forall s n h h', s mod q448 <> 0 -> sim_reveals n mute_next mute_finish (emul s ebase) h h' = false.
Proof. intros s n h h' H. unfold sim_reveals. rewrite mute_extracted. exact (no_log s H). Qed.
Lemma mute_known : forall A coins t a, let st := fold_left (sim_step mute_next A) coins (View t a []) in (forall x, In x (map fst (concat t)) -> x = []) -> forall x, In x (map fst (known st)) -> x = [].
Proof.
  intro A. induction coins as [ | c coins IH ]; intros t a st H x; [ exact (H x) | ]. unfold st. cbn [fold_left].
  change (sim_step mute_next A (View t a []) c) with (View (t ++ [[([], sampled (concat t) [] (fst c))]]) (a ++ [sampled (concat t) [] (fst c)]) []). apply IH.
  intros y. rewrite concat_app, map_app. intro I. apply in_app_or in I as [ I | [ I | [] ] ]; [ exact (H y I) | symmetry; exact I ].
Qed.
Lemma mute_reads : forall s n h, s mod q448 <> 0 -> sim_reads n mute_next mute_finish (emul s ebase) h = false.
Proof.
  intros s n h H. unfold sim_reads. apply not_true_iff_false. intro E. apply existsb_exists in E as (x & I & E).
  assert (R : read_from x = 0).
  { unfold sim_asked in I. destruct I as [ <- | I ].
    - unfold final_input. assert (F : forall y, mute_finish y = (repeat 0 114, [])) by reflexivity. rewrite F. unfold forged_input. cbn [fst snd]. unfold read_from.
      generalize (eencode (subgroup_part (emul s ebase)) ++ []). intro l. reflexivity.
    - apply mute_known in I; [ subst x; reflexivity | intros y [] ]. }
  unfold shows in E. rewrite R in E. change (same_point (emul 0 ebase) (emul s ebase) = true) in E. rewrite (no_log s H) in E. discriminate E.
Qed.
Lemma scalar_zero : forall d, secret_scalar d mod q448 = 0 -> middle d = q448 - 2 ^ 445.
Proof.
  intros d E. pose proof (middle_range d) as M. unfold secret_scalar in E. fold (middle d) in E. revert M E. generalize (middle d). intros z M E.
  apply Z.mod_divide in E; [ | discriminate ]. destruct E as (c & E).
  assert (Q1 : 2 ^ 447 < 4 * q448 < 2 ^ 448) by (split; apply Z.ltb_lt; reflexivity). assert (Q2 : 2 * q448 < 2 ^ 447) by (apply Z.ltb_lt; reflexivity). assert (Q3 : 2 ^ 448 < 5 * q448) by (apply Z.ltb_lt; reflexivity).
  assert (P : 2 ^ 448 = 2 * 2 ^ 447 /\ 2 ^ 447 = 4 * 2 ^ 445) by (split; reflexivity).
  assert (C : c = 3 \/ c = 4) by nia. destruct C as [ -> | -> ]; [ exfalso | lia ].
  apply (f_equal (fun x => x mod 4)) in E. replace (2 ^ 447 + 4 * z) with ((2 ^ 445 + z) * 4) in E by lia. rewrite Z.mod_mul in E by discriminate. apply Z.eqb_eq in E. revert E. apply not_true_iff_false. reflexivity.
Qed.
(* the secret is found for the scalar 4 q only: for at most one in 2^445 *)
Theorem mute_seeds : forall n t k, 0 <= t -> 0 <= k -> 2 * k + t <= 445 ->
  let coins := vectors (list_prod (strings 114) (below q448)) (S n) in
  let pairs := list_prod (strings 114) (list_prod coins coins) in
  2 ^ (2 * k + t) * tally (fun w => sim_game_reveals n (fun _ => mute_next) (fun _ => mute_finish) (emul (secret_scalar (fst w)) ebase) (fst (snd w)) (snd (snd w))) pairs <= Z.of_nat (length pairs).
Proof.
  intros n t k Ht Hk H coins pairs. assert (K : tally (fun w => sim_game_reveals n (fun _ => mute_next) (fun _ => mute_finish) (emul (secret_scalar (fst w)) ebase) (fst (snd w)) (snd (snd w))) pairs <=
    256 ^ 57 * 2048 * Z.of_nat (length (list_prod coins coins))).
  { unfold pairs. rewrite tally_b2z, lsum_prod. apply Z.le_trans with (lsum (fun d => Z.of_nat (length (list_prod coins coins)) * b2z (middle d =? q448 - 2 ^ 445)) (strings 114)).
    - apply lsum_le. intros d _. destruct (Z.eqb_spec (middle d) (q448 - 2 ^ 445)) as [ E | E ].
      + apply Z.le_trans with (lsum (fun _ => 1) (list_prod coins coins)); [ apply lsum_le; intros y _; unfold b2z; destruct (sim_game_reveals _ _ _ _ _ _); [ apply Z.le_refl | discriminate ] | ].
        rewrite lsum_const. apply Z.le_refl.
      + rewrite (lsum_ext _ (fun _ => 0)); [ rewrite lsum_const, Z.mul_0_r; unfold b2z; rewrite Z.mul_0_r; apply Z.le_refl | ].
        intros y _. cbn [fst snd]. unfold sim_game_reveals. rewrite mute_reveals; [ reflexivity | ]. intro Z0. apply E. exact (scalar_zero d Z0).
    - rewrite lsum_mul, Z.mul_comm. apply Z.mul_le_mono_nonneg_r; [ apply Nat2Z.is_nonneg | ]. apply digest_share. split; [ apply Z.leb_le; reflexivity | apply Z.ltb_lt; reflexivity ]. }
  unfold pairs at 2. rewrite prod_count, strings_total. revert K. generalize (tally (fun w => sim_game_reveals n (fun _ => mute_next) (fun _ => mute_finish) (emul (secret_scalar (fst w)) ebase) (fst (snd w)) (snd (snd w))) pairs).
  pose proof (Nat2Z.is_nonneg (length (list_prod coins coins))) as V0. revert V0. generalize (Z.of_nat (length (list_prod coins coins))). clear pairs coins. intros V V0 r K.
  assert (P : 2 ^ (2 * k + t) <= 2 ^ 445) by (apply Z.pow_le_mono_r; lia). assert (P0 : 0 < 2 ^ (2 * k + t)) by (apply Z.pow_pos_nonneg; lia).
  apply Z.le_trans with (2 ^ (2 * k + t) * (256 ^ 57 * 2048 * V)); [ apply Z.mul_le_mono_nonneg_l; [ lia | exact K ] | ].
  rewrite Z.mul_assoc. apply Z.mul_le_mono_nonneg_r; [ exact V0 | ]. apply Z.le_trans with (2 ^ 445 * (256 ^ 57 * 2048)); [ | apply Z.leb_le; reflexivity ]. apply Z.mul_le_mono_nonneg_r; [ apply Z.leb_le; reflexivity | exact P ].
Qed.
Theorem mute_expanded : forall n, let A := emul (secret_scalar key4) ebase in In key4 expanded /\
  (forall h h', sim_reveals n mute_next mute_finish A h h' = false) /\ (forall h, sim_reads n mute_next mute_finish A h = false).
Proof.
  intros n A. assert (Z0 : secret_scalar key4 mod q448 <> 0) by (destruct key4_ok as (_ & _ & _ & ->); apply Z.eqb_neq; reflexivity).
  split; [ exact key4_expanded | ]. split; [ intros h h'; exact (mute_reveals _ n h h' Z0) | intro h; exact (mute_reads _ n h Z0) ].
Qed.
