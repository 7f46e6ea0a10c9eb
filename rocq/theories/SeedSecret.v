(* The seed cannot be found from the public key and the answers of the signer, by whatever means. *)
From Coq Require Import ZArith List Bool Lia.
From Verif Require Import Base SpecField SpecBytes SpecScalar SpecCurve SpecDecode SpecEd448 SpecVerify SpecInternal SpecUniform SpecProtocol SpecQueries SpecForger.
From Verif Require Import Bytes Errors Eddsa Goldilocks Game Seen.
From Verif Require Import Field Edwards Isogeny CombMul BaseTables PrimeQ Decode Verify Ed448 Order Equation Facts Sound Kernel Uniform Count Bind Alias Api Protocol Structure SmallKeys Queries Transcripts Unbias Forking Forger GameFork GameHop GameReal Complete GameExpanded Advantage Simulate.
Import ListNotations.
Open Scope Z_scope.
Local Opaque strings q448 below eencode emul.

Local Notation pk s := (eencode (emul s ebase)).
Local Notation both := (list_prod (strings 114) (strings 114)).
Section Guess.
Variable n : nat.
Variable next : list Z -> list (list Z) -> query.
Variable guess : sight -> list Z.
Local Notation games := (list_prod seeds (list_prod (strings 114) (vectors both (S n)))).
Local Notation CO := (vectors both (S n)).
Local Notation seen s c := (pk s, answers (own_end n (next (pk s)) s c)).
Lemma one_key : forall x, lsum (fun k => b2z (same_string x k)) seeds <= 1.
Proof.
  intro x. unfold seeds. eapply Z.le_trans; [ apply lsum_filter; intro y; apply b2z_nonneg | ].
  eapply Z.le_trans; [ | exact (few_hits 57 (fun y => y) [x]) ]. apply Z.eq_le_incl. apply lsum_ext. intros k _. cbn [existsb]. rewrite orb_false_r, same_sym. reflexivity.
Qed.
Theorem seed_kept : 2 ^ 456 * tally (fun w => judge (fun v => same_string (guess v) (fst w)) (real_sight n next (fst w) (fst (snd w)) (snd (snd w)))) games <=
  (3 * Z.of_nat n + 5) * Z.of_nat (length games).
Proof.
  pose proof (key_hits n next (fun _ => idle) (strings 114) seeds _ eq_refl eq_refl) as K1.
  pose proof (prefix_hits n next (fun _ => idle) (strings 114) (strings 57) _ eq_refl eq_refl eq_refl) as K2.
  assert (H57 : Z.of_nat (length (strings 57)) = 256 ^ 57) by (rewrite <- tally_all; exact (count_all 57)). rewrite H57 in K2.
  rewrite !prod_count, seeds_455, tally_b2z, !lsum_prod. cbn [fst snd].
  assert (T : lsum (fun k => lsum (fun w => b2z (judge (fun v => same_string (guess v) k) (real_sight n next k (fst w) (snd w)))) (list_prod (strings 114) CO)) seeds <=
    lsum (fun k => lsum (fun d => lsum (fun c => b2z (same_string (guess (seen (secret_scalar d) c)) k)) CO) (strings 114)) seeds +
    lsum (fun k => lsum (fun d => lsum (fun c => b2z (asks_key n (next (pk (secret_scalar d))) idle (secret_scalar d) c k)) CO) (strings 114)) seeds +
    2 ^ 455 * lsum (fun d => lsum (fun c => b2z (asks_prefix n (next (pk (secret_scalar d))) idle (secret_scalar d) c (skipn 57 d))) CO) (strings 114)).
  { rewrite <- seeds_455, <- lsum_const, <- !lsum_add. apply lsum_le. intros k Ik. apply seeds_in in Ik as (L0 & B & E). rewrite lsum_prod. cbn [fst snd]. rewrite <- !lsum_add. apply lsum_le. intros d Id.
    rewrite <- !lsum_add. apply lsum_le. intros c Ic. exact (sight_own n next (fun v => same_string (guess v) k) k d c L0 B E Id Ic). }
  assert (O : lsum (fun k => lsum (fun d => lsum (fun c => b2z (same_string (guess (seen (secret_scalar d) c)) k)) CO) (strings 114)) seeds <= Z.of_nat (length (strings 114)) * Z.of_nat (length CO)).
  { rewrite lsum_swap, <- lsum_const. apply lsum_le. intros d _. rewrite lsum_swap. rewrite <- (Z.mul_1_r (Z.of_nat (length CO))), <- lsum_const. apply lsum_le. intros c _. apply one_key. }
  rewrite strings_total in *. pose proof (Nat2Z.is_nonneg (length CO)) as C0. revert T O K1 K2 C0.
  generalize (lsum (fun k => lsum (fun w => b2z (judge (fun v => same_string (guess v) k) (real_sight n next k (fst w) (snd w)))) (list_prod (strings 114) CO)) seeds)
    (lsum (fun k => lsum (fun d => lsum (fun c => b2z (same_string (guess (seen (secret_scalar d) c)) k)) CO) (strings 114)) seeds)
    (lsum (fun k => lsum (fun d => lsum (fun c => b2z (asks_key n (next (pk (secret_scalar d))) idle (secret_scalar d) c k)) CO) (strings 114)) seeds)
    (lsum (fun d => lsum (fun c => b2z (asks_prefix n (next (pk (secret_scalar d))) idle (secret_scalar d) c (skipn 57 d))) CO) (strings 114)) (Z.of_nat (length CO)).
  intros total o a b C T O A B C0. rewrite Nat2Z.inj_succ in A, B. unfold Z.succ in A, B. revert A B. generalize (Z.of_nat n). intros m A B.
  assert (B' : 2 ^ 455 * b <= 2 ^ 455 * (256 ^ 57 * (C * (m + 1)))) by (apply Z.mul_le_mono_nonneg_l; [ apply Z.leb_le; reflexivity | exact B ]).
  assert (T' : 2 ^ 456 * total <= 2 ^ 456 * (256 ^ 114 * C + 256 ^ 114 * (C * (m + 1)) + 2 ^ 455 * (256 ^ 57 * (C * (m + 1))))) by (apply Z.mul_le_mono_nonneg_l; [ apply Z.leb_le; reflexivity | lia ]).
  apply Z.le_trans with (1 := T'). apply Z.eq_le_incl. change (256 ^ 114) with (2 ^ 456 * 2 ^ 456). change (256 ^ 57) with (2 ^ 456). change (2 ^ 456) with (2 * 2 ^ 455). generalize (2 ^ 455). intro u. ring.
Qed.
(* the second half of the digest of the seed, which is hashed for the nonces *)
Lemma one_prefix : forall x, lsum (fun v => b2z (same_string x v)) (strings 57) <= 1.
Proof. intro x. eapply Z.le_trans; [ | exact (few_hits 57 (fun y => y) [x]) ]. apply Z.eq_le_incl. apply lsum_ext. intros k _. cbn [existsb]. rewrite orb_false_r, same_sym. reflexivity. Qed.
Lemma prefix_guessed : lsum (fun d => lsum (fun c => b2z (same_string (guess (seen (secret_scalar d) c)) (skipn 57 d))) CO) (strings 114) <= Z.of_nat (length (strings 57)) * Z.of_nat (length CO).
Proof.
  eapply Z.le_trans; [ apply Z.eq_le_incl; exact (strings_split 57 57 (fun d => lsum (fun c => b2z (same_string (guess (seen (secret_scalar d) c)) (skipn 57 d))) CO)) | ]. rewrite <- lsum_const. apply lsum_le. intros u Iu. apply in_strings in Iu as (L & _).
  rewrite (lsum_ext _ (fun v => lsum (fun c => b2z (same_string (guess (seen (secret_scalar u) c)) v)) CO)).
  - rewrite lsum_swap. rewrite <- (Z.mul_1_r (Z.of_nat (length CO))), <- lsum_const. apply lsum_le. intros c _. apply one_prefix.
  - intros v _.
    assert (E : secret_scalar (u ++ v) = secret_scalar u) by (apply secret_firstn; rewrite firstn_app, L; change (56 - 57)%nat with 0%nat; cbn [firstn]; apply app_nil_r).
    assert (F : skipn 57 (u ++ v) = v) by (rewrite skipn_app, L, Nat.sub_diag, skipn_all2 by (rewrite L; apply Nat.le_refl); reflexivity).
    rewrite E, F. reflexivity.
Qed.
Theorem prefix_kept : 2 ^ 456 * tally (fun w => judge (fun v => same_string (guess v) (skipn 57 (fst (snd w)))) (real_sight n next (fst w) (fst (snd w)) (snd (snd w)))) games <=
  (3 * Z.of_nat n + 4) * Z.of_nat (length games).
Proof.
  pose proof (key_hits n next (fun _ => idle) (strings 114) seeds _ eq_refl eq_refl) as K1.
  pose proof (prefix_hits n next (fun _ => idle) (strings 114) (strings 57) _ eq_refl eq_refl eq_refl) as K2. pose proof prefix_guessed as O.
  assert (H57 : Z.of_nat (length (strings 57)) = 256 ^ 57) by (rewrite <- tally_all; exact (count_all 57)). rewrite H57 in K2, O.
  rewrite !prod_count, seeds_455, tally_b2z, !lsum_prod. cbn [fst snd].
  assert (T : lsum (fun k => lsum (fun w => b2z (judge (fun v => same_string (guess v) (skipn 57 (fst w))) (real_sight n next k (fst w) (snd w)))) (list_prod (strings 114) CO)) seeds <=
    2 ^ 455 * lsum (fun d => lsum (fun c => b2z (same_string (guess (seen (secret_scalar d) c)) (skipn 57 d))) CO) (strings 114) +
    lsum (fun k => lsum (fun d => lsum (fun c => b2z (asks_key n (next (pk (secret_scalar d))) idle (secret_scalar d) c k)) CO) (strings 114)) seeds +
    2 ^ 455 * lsum (fun d => lsum (fun c => b2z (asks_prefix n (next (pk (secret_scalar d))) idle (secret_scalar d) c (skipn 57 d))) CO) (strings 114)).
  { rewrite <- seeds_455, <- !lsum_const, <- !lsum_add. apply lsum_le. intros k Ik. apply seeds_in in Ik as (L0 & B & E). rewrite lsum_prod. cbn [fst snd]. rewrite <- !lsum_add. apply lsum_le. intros d Id.
    rewrite <- !lsum_add. apply lsum_le. intros c Ic. exact (sight_own n next (fun v => same_string (guess v) (skipn 57 d)) k d c L0 B E Id Ic). }
  rewrite strings_total in *. pose proof (Nat2Z.is_nonneg (length CO)) as C0. revert T O K1 K2 C0.
  generalize (lsum (fun k => lsum (fun w => b2z (judge (fun v => same_string (guess v) (skipn 57 (fst w))) (real_sight n next k (fst w) (snd w)))) (list_prod (strings 114) CO)) seeds)
    (lsum (fun d => lsum (fun c => b2z (same_string (guess (seen (secret_scalar d) c)) (skipn 57 d))) CO) (strings 114))
    (lsum (fun k => lsum (fun d => lsum (fun c => b2z (asks_key n (next (pk (secret_scalar d))) idle (secret_scalar d) c k)) CO) (strings 114)) seeds)
    (lsum (fun d => lsum (fun c => b2z (asks_prefix n (next (pk (secret_scalar d))) idle (secret_scalar d) c (skipn 57 d))) CO) (strings 114)) (Z.of_nat (length CO)).
  intros total o a b C T O A B C0. rewrite Nat2Z.inj_succ in A, B. unfold Z.succ in A, B. revert A B. generalize (Z.of_nat n). intros m A B.
  assert (B' : 2 ^ 455 * b <= 2 ^ 455 * (256 ^ 57 * (C * (m + 1)))) by (apply Z.mul_le_mono_nonneg_l; [ apply Z.leb_le; reflexivity | exact B ]).
  assert (O' : 2 ^ 455 * o <= 2 ^ 455 * (256 ^ 57 * C)) by (apply Z.mul_le_mono_nonneg_l; [ apply Z.leb_le; reflexivity | exact O ]).
  assert (T' : 2 ^ 456 * total <= 2 ^ 456 * (2 ^ 455 * (256 ^ 57 * C) + 256 ^ 114 * (C * (m + 1)) + 2 ^ 455 * (256 ^ 57 * (C * (m + 1))))) by (apply Z.mul_le_mono_nonneg_l; [ apply Z.leb_le; reflexivity | lia ]).
  apply Z.le_trans with (1 := T'). apply Z.eq_le_incl. change (256 ^ 114) with (2 ^ 456 * 2 ^ 456). change (256 ^ 57) with (2 ^ 456). change (2 ^ 456) with (2 * 2 ^ 455). generalize (2 ^ 455). intro u. ring.
Qed.
End Guess.
(* whoever guesses the same seed each time *)
Theorem one_guess : forall n next key d coins, In key seeds -> In d (strings 114) -> judge (fun _ => same_string key key) (real_sight n next key d coins) = true.
Proof. intros n next key d coins I J. destruct (derives key d n next coins I J) as (v & ->). cbn [judge]. apply same_refl. Qed.
