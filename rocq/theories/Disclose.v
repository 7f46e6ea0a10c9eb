(* What one signature discloses, when the hash answers at random: nearly the same as a signature made from the public key. *)
From Coq Require Import ZArith List Bool Lia.
From Verif Require Import Base SpecField SpecBytes SpecScalar SpecCurve SpecDecode SpecEd448 SpecVerify SpecInternal SpecUniform SpecQueries SpecForger SpecRepeat.
From Verif Require Import Bytes Errors ScalarModel ExtendedPoint Eddsa Goldilocks Lib Game.
From Verif Require Import Field Edwards Isogeny ScalarProofs CombMul BaseTables PrimeQ Decode Ed448 Order Equation Facts Sound Kernel Uniform Count Bind Protocol Structure SmallKeys Internal Queries Transcripts Unbias Forking Forger GameFork GameHop GameReal Complete GameExpanded Api Repeat.
Import ListNotations.
Open Scope Z_scope.
Local Opaque strings q448 below eencode emul.

Lemma scalar_of : forall f h, In h (strings 114) -> scalar_is f h = f (le_val h mod q448).
Proof.
  intros f h I. apply (proj1 (in_strings 114 h)) in I as (L & B). unfold scalar_is. destruct (decode_long_ok h B) as (r & E & _ & V); [ rewrite L; reflexivity | ].
  rewrite E, sc_v, V. reflexivity.
Qed.
Lemma near : forall f : Z -> bool, Z.abs (q448 * lsum (fun h => b2z (f (le_val h mod q448))) (strings 114) - 256 ^ 114 * lsum (fun r => b2z (f r)) (below q448)) * 2 ^ 466 <= q448 * 256 ^ 114.
Proof.
  intro f. pose proof (distance f) as D. rewrite !tally_b2z in D. rewrite (lsum_ext _ (fun h => b2z (f (le_val h mod q448)))) in D; [ exact D | ].
  intros h I. rewrite (scalar_of f h I). reflexivity.
Qed.
Lemma lsum_abs : forall (T : Type) (f g : T -> Z) l c, (forall x, In x l -> Z.abs (f x - g x) <= c) -> Z.abs (lsum f l - lsum g l) <= c * Z.of_nat (length l).
Proof.
  intros T f g l c. induction l as [ | x l IH ]; intro H; [ cbn [lsum length]; lia | ]. cbn [lsum length]. pose proof (H x (or_introl eq_refl)) as H1.
  pose proof (IH (fun y I => H y (or_intror I))) as H2. rewrite Nat2Z.inj_succ. lia.
Qed.
Lemma gap_sum : forall (X V Y : Type) (f : X * Y -> Z) (g : V * Y -> Z) lx lv ly a b P c, 0 <= P ->
  (forall y, In y ly -> Z.abs (a * lsum (fun x => f (x, y)) lx - b * lsum (fun v => g (v, y)) lv) * P <= c) ->
  Z.abs (a * lsum f (list_prod lx ly) - b * lsum g (list_prod lv ly)) * P <= c * Z.of_nat (length ly).
Proof.
  intros X V Y f g lx lv ly a b P c HP H.
  rewrite (lsum_prod _ _ f), (lsum_prod _ _ g), (lsum_swap _ _ (fun x y => f (x, y))), (lsum_swap _ _ (fun v y => g (v, y))).
  replace P with (Z.abs P) by (apply Z.abs_eq; exact HP). rewrite <- Z.abs_mul, Z.mul_sub_distr_r, !(Z.mul_comm _ P), <- !lsum_mul.
  apply lsum_abs. intros y I. rewrite <- Z.mul_sub_distr_l, Z.abs_mul, (Z.abs_eq P), Z.mul_comm by exact HP. exact (H y I).
Qed.

Section Disclosed.
Variable s : Z.
Variable W : list Z -> list Z -> bool.
Local Notation A := (emul s ebase).
Definition signature (r k : Z) : list Z := eencode (emul r ebase) ++ le_bytes 57 ((r + k * s) mod q448).
Definition copied (S k : Z) : list Z := eencode (eadd (emul S ebase) (eneg (emul k A))) ++ le_bytes 57 S.
Lemma signature_mod : forall r k, signature (r mod q448) k = signature r k.
Proof. intros r k. unfold signature. rewrite emul_mod_base, Z.add_mod_idemp_l by discriminate. reflexivity. Qed.
Lemma copied_signature : forall r k, copied ((r + k * s) mod q448) k = signature r k.
Proof.
  intros r k. unfold copied, signature.
  assert (E : eadd (emul ((r + k * s) mod q448) ebase) (eneg (emul k A)) = emul r ebase); [ | rewrite E; reflexivity ].
  rewrite emul_mod_base, emul_add by exact ebase_on. rewrite <- (emul_mul k s ebase ebase_on).
  pose proof (emul_on r ebase ebase_on) as C1. pose proof (emul_on (k * s) ebase ebase_on) as C2. rewrite eadd_assoc, eadd_neg, eadd_0_r; try assumption; [ reflexivity | ]. apply eneg_on. exact C2.
Qed.
Lemma for_challenge : forall a, Z.abs (q448 * lsum (fun h => b2z (W (signature (le_val h) (le_val a)) a)) (strings 114) -
  256 ^ 114 * lsum (fun S => b2z (W (copied S (le_val a)) a)) (below q448)) * 2 ^ 466 <= q448 * 256 ^ 114.
Proof.
  intro a. pose proof (near (fun r => W (signature r (le_val a)) a)) as N. cbv beta in N.
  rewrite (lsum_ext _ (fun h => b2z (W (signature (le_val h) (le_val a)) a))) in N by (intros h _; rewrite signature_mod; reflexivity).
  rewrite <- (lsum_shift (fun S => b2z (W (copied S (le_val a)) a)) (le_val a * s)).
  rewrite (lsum_ext (fun r => b2z (W (copied ((r + le_val a * s) mod q448) (le_val a)) a)) (fun r => b2z (W (signature r (le_val a)) a))) by (intros r _; rewrite copied_signature; reflexivity).
  exact N.
Qed.
Lemma disclosed : Z.abs (q448 * tally (fun w => W (signature (le_val (fst w)) (le_val (snd w))) (snd w)) (list_prod (strings 114) (strings 114)) -
  256 ^ 114 * tally (fun w => W (copied (fst w) (le_val (snd w))) (snd w)) (list_prod (below q448) (strings 114))) * 2 ^ 466 <= q448 * 256 ^ 114 * 256 ^ 114.
Proof.
  rewrite !tally_b2z. pose proof strings_total as E. pose proof for_challenge as F. revert E F. generalize (256 ^ 114). intros N E F. rewrite <- E at 3.
  apply gap_sum; [ apply Z.pow_nonneg; lia | ]. intros a _. exact (F a).
Qed.
End Disclosed.

Definition signs_into (W : list Z -> list Z -> bool) (H : list Z -> nat -> list Z) (key m a : list Z) : bool :=
  match ed448_sign H key m with Some sig => W sig a | None => false end.
Section Run.
Variables (key prefix m : list Z) (s : Z) (T0 T : list (list Z * list Z)).
Hypothesis B0 : bytes_table T0.
Hypothesis BT : bytes_table T.
Local Notation input := (rfc_dom ++ prefix ++ m).
Local Notation question := (fun r => rfc_dom ++ eencode (emul r ebase) ++ eencode (emul s ebase) ++ m).
Local Notation tabl := (fun h a => T0 ++ (input, h) :: (question (le_val h), a) :: T).
Hypothesis PL : length prefix = 57%nat.
Hypothesis fresh : recall input T0 = None.
Hypothesis fresh' : forall r, recall (question r) T0 = None.
Hypothesis runs : forall h a, is_xof (table_xof (tabl h a)) -> ed448_sign (table_xof (tabl h a)) key m = Some (rfc_sign_with (table_xof (tabl h a)) s prefix (eencode (emul s ebase)) m).
Lemma signed_as : forall h a, In h (strings 114) -> In a (strings 114) -> ed448_sign (table_xof (tabl h a)) key m = Some (signature s (le_val h) (le_val a)).
Proof.
  intros h a Ih Ia. apply (proj1 (in_strings 114 h)) in Ih as (Lh & Bh). apply (proj1 (in_strings 114 a)) in Ia as (La & Ba).
  assert (X : is_xof (table_xof (tabl h a))).
  { apply table_is_xof. intros x b I. apply in_app_or in I as [ I | [ I | [ I | I ] ] ]; [ exact (B0 x b I) | | | exact (BT x b I) ]; injection I as <- <-; assumption. }
  rewrite (runs h a X). f_equal. unfold rfc_sign_with, signature.
  assert (E1 : table_xof (tabl h a) input 114%nat = h). { apply table_at; [ | exact Lh ]. rewrite recall_app, fresh. cbn [recall]. rewrite same_refl. reflexivity. }
  rewrite E1. cbv zeta.
  assert (E2 : table_xof (tabl h a) (question (le_val h)) 114%nat = a).
  { apply table_at; [ | exact La ]. rewrite recall_app, fresh'. cbn [recall]. rewrite same_length, same_refl; [ reflexivity | ].
    rewrite !app_length, !eencode_len, PL. lia. }
  rewrite E2. reflexivity.
Qed.
Lemma run_disclosed : forall W, Z.abs (q448 * tally (fun w => signs_into W (table_xof (tabl (fst w) (snd w))) key m (snd w)) (list_prod (strings 114) (strings 114)) -
  256 ^ 114 * tally (fun w => W (eencode (eadd (emul (fst w) ebase) (eneg (emul (le_val (snd w)) (emul s ebase)))) ++ le_bytes 57 (fst w)) (snd w)) (list_prod (below q448) (strings 114))) * 2 ^ 466
  <= q448 * 256 ^ 114 * 256 ^ 114.
Proof.
  intro W. pose proof (disclosed s W) as D. rewrite <- (count_ext _ (fun w => signs_into W (table_xof (tabl (fst w) (snd w))) key m (snd w))) in D; [ exact D | ].
  intros (h, a) I. apply in_prod_iff in I as (Ih & Ia). cbn [fst snd]. unfold signs_into. rewrite (signed_as h a Ih Ia). reflexivity.
Qed.
End Run.
Theorem seed_disclosed : forall key d m T W, In key seeds -> In d (strings 114) -> bytes_table T ->
  let A := emul (secret_scalar d) ebase in
  let hash h a := table_xof ((key, d) :: (rfc_dom ++ skipn 57 d ++ m, h) :: (rfc_dom ++ eencode (emul (le_val h) ebase) ++ eencode A ++ m, a) :: T) in
  Z.abs (q448 * tally (fun w => signs_into W (hash (fst w) (snd w)) key m (snd w)) (list_prod (strings 114) (strings 114)) -
    256 ^ 114 * tally (fun w => W (eencode (eadd (emul (fst w) ebase) (eneg (emul (le_val (snd w)) A))) ++ le_bytes 57 (fst w)) (snd w)) (list_prod (below q448) (strings 114))) * 2 ^ 466
  <= q448 * 256 ^ 114 * 256 ^ 114.
Proof.
  intros key d m T W IK ID BT A hash. apply (proj1 (seeds_in _)) in IK as (L & B & ES). apply (proj1 (in_strings 114 d)) in ID as (Ld & Bd).
  apply (run_disclosed key (skipn 57 d) m (secret_scalar d) [(key, d)] T).
  - intros x a [ E | [] ]; injection E as <- <-; exact Bd.
  - exact BT.
  - rewrite skipn_length, Ld. reflexivity.
  - cbn [recall]. rewrite same_length; [ reflexivity | ]. rewrite !app_length, skipn_length, Ld, L. cbn [length rfc_dom]. lia.
  - intro r. cbn [recall]. rewrite same_length; [ reflexivity | ]. rewrite !app_length, !eencode_len, L. cbn [length rfc_dom]. lia.
  - intros h a X. rewrite (sign_ok _ X key m L B), ES. unfold rfc_sign, rfc_public.
    assert (E : table_xof ([(key, d)] ++ (rfc_dom ++ skipn 57 d ++ m, h) :: (rfc_dom ++ eencode (emul (le_val h) ebase) ++ eencode (emul (secret_scalar d) ebase) ++ m, a) :: T) key 114%nat = d).
    { apply table_at; [ cbn [app recall]; rewrite same_refl; reflexivity | exact Ld ]. }
    rewrite E. reflexivity.
Qed.
Theorem expanded_disclosed : forall key m T W, In key expanded -> bytes_table T ->
  let A := emul (secret_scalar key) ebase in
  let hash h a := table_xof ((rfc_dom ++ le_bytes 57 (secret_scalar key) ++ m, h) :: (rfc_dom ++ eencode (emul (le_val h) ebase) ++ eencode A ++ m, a) :: T) in
  Z.abs (q448 * tally (fun w => signs_into W (hash (fst w) (snd w)) key m (snd w)) (list_prod (strings 114) (strings 114)) -
    256 ^ 114 * tally (fun w => W (eencode (eadd (emul (fst w) ebase) (eneg (emul (le_val (snd w)) A))) ++ le_bytes 57 (fst w)) (snd w)) (list_prod (below q448) (strings 114))) * 2 ^ 466
  <= q448 * 256 ^ 114 * 256 ^ 114.
Proof.
  intros key m T W IK BT A hash. apply (proj1 (expanded_in _)) in IK as (L & B & ES).
  apply (run_disclosed key (le_bytes 57 (secret_scalar key)) m (secret_scalar key) [] T).
  - intros x a [].
  - exact BT.
  - apply le_bytes_length.
  - reflexivity.
  - reflexivity.
  - intros h a X. rewrite (sign_ok _ X key m L B), ES. reflexivity.
Qed.
