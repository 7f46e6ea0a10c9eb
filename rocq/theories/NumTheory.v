(* Fermat's little theorem and Pocklington's primality criterion. *)
From Coq Require Import ZArith List Lia Permutation Znumtheory Zpow_facts.
Import ListNotations.
Open Scope Z_scope.

Definition zprod (l : list Z) : Z := fold_right Z.mul 1 l.

Lemma zprod_perm : forall a b, Permutation a b -> zprod a = zprod b.
Proof. induction 1; simpl; lia. Qed.

Section Fermat.
Variable r : Z.
Hypothesis Hr : prime r.

Let L := map Z.of_nat (seq 1 (Z.to_nat (r - 1))).

Lemma r_gt1 : 1 < r.
Proof. destruct Hr; assumption. Qed.

Lemma L_in : forall z, In z L <-> 1 <= z < r.
Proof.
  pose proof r_gt1. intro z. unfold L. rewrite in_map_iff. split.
  - intros (n & <- & Hn). apply in_seq in Hn. lia.
  - intro Hz. exists (Z.to_nat z). split; [ lia | ]. apply in_seq. lia.
Qed.
Lemma L_nodup : NoDup L.
Proof.
  unfold L. apply FinFun.Injective_map_NoDup; [ | apply seq_NoDup ].
  intros x y H. lia.
Qed.

Lemma fermat_units : forall a, ~ (r | a) -> a ^ (r - 1) mod r = 1.
Proof.
  intros a Ha. pose proof r_gt1 as H1.
  set (M := map (fun z => (a * z) mod r) L).
  assert (HM : Permutation M L).
  { apply NoDup_Permutation_bis.
    - unfold M.
      assert (G : forall l, NoDup l -> (forall z, In z l -> 1 <= z < r) ->
                NoDup (map (fun z => (a * z) mod r) l)).
      { induction 1 as [|x l Hx Hl IH]; intro Hi; simpl; constructor.
        - rewrite in_map_iff. intros (y & Hy1 & Hy2).
          assert (D : (r | a * (y - x))).
          { apply Z.mod_divide; [ lia | ].
            replace (a * (y - x)) with (a * y - a * x) by ring.
            rewrite Zminus_mod, Hy1, Z.sub_diag. apply Z.mod_0_l. lia. }
          apply prime_mult in D; [ | exact Hr ]. destruct D as [D|D]; [ contradiction | ].
          pose proof (Hi x ltac:(left; reflexivity)). pose proof (Hi y ltac:(right; assumption)).
          destruct D as (k & Hk). assert (k = 0) by nia. subst k. assert (x = y) by lia.
          subst y. contradiction.
        - apply IH. intros z Hz. apply Hi. right. exact Hz. }
      apply G; [ exact L_nodup | apply L_in ].
    - unfold M. rewrite map_length. apply le_n.
    - intros z Hz. unfold M in Hz. apply in_map_iff in Hz. destruct Hz as (x & <- & Hx).
      apply L_in in Hx. apply L_in.
      pose proof (Z.mod_pos_bound (a * x) r ltac:(lia)).
      assert ((a * x) mod r <> 0); [ | lia ].
      intro E. apply Z.mod_divide in E; [ | lia ].
      apply prime_mult in E; [ | exact Hr ]. destruct E as [E|(k & Hk)]; [ contradiction | ].
      assert (k = 0) by nia. subst k. lia. }
  assert (P1 : forall l, zprod (map (fun z => (a * z) mod r) l) mod r =
                (a ^ Z.of_nat (length l) * zprod l) mod r).
  { induction l as [|x l IH]; [ reflexivity | ].
    cbn [map zprod fold_right length]. fold (zprod (map (fun z => (a * z) mod r) l)). fold (zprod l).
    rewrite Z.mul_mod, IH, <- Z.mul_mod, Z.mul_mod_idemp_l by lia.
    rewrite Nat2Z.inj_succ, Z.pow_succ_r by lia. f_equal. ring. }
  specialize (P1 L). fold M in P1. rewrite (zprod_perm _ _ HM) in P1.
  assert (LL : Z.of_nat (length L) = r - 1).
  { unfold L. rewrite map_length, seq_length. lia. }
  rewrite LL in P1.
  assert (NZ : forall l, (forall z, In z l -> 1 <= z < r) -> ~ (r | zprod l)).
  { induction l as [|x l IH]; intros Hi D.
    - destruct D as (k & Hk). cbn in Hk. assert (k * r = 1) by lia.
      assert (k = 0 \/ k <> 0) as [->|] by lia; nia.
    - cbn [zprod fold_right] in D. fold (zprod l) in D. apply prime_mult in D; [ | exact Hr ].
      destruct D as [(k & Hk)|D].
      + pose proof (Hi x ltac:(left; reflexivity)). assert (k = 0) by nia. subst k. lia.
      + revert D. apply IH. intros z Hz. apply Hi. right. exact Hz. }
  specialize (NZ L (fun z => proj1 (L_in z))).
  assert (D : (r | zprod L * (a ^ (r - 1) - 1))).
  { apply Z.mod_divide; [ lia | ].
    replace (zprod L * (a ^ (r - 1) - 1)) with (a ^ (r - 1) * zprod L - zprod L) by ring.
    rewrite Zminus_mod, <- P1, Z.sub_diag. apply Z.mod_0_l. lia. }
  apply prime_mult in D; [ | exact Hr ]. destruct D as [D|D]; [ contradiction | ].
  destruct D as (k & Hk). replace (a ^ (r - 1)) with (1 + k * r) by lia.
  rewrite Z.mod_add by lia. apply Z.mod_1_l. lia.
Qed.
End Fermat.

Lemma prime_divisor : forall n, 1 < n -> exists r, prime r /\ (r | n).
Proof.
  intros n H.
  assert (G : forall k m, 1 < m -> m < Z.of_nat k -> exists r, prime r /\ (r | m)).
  { induction k as [|k IH]; intros m Hm Hk; [ lia | ].
    destruct (prime_dec m) as [P|NP].
    - exists m. split; [ exact P | apply Z.divide_refl ].
    - destruct (not_prime_divide m Hm NP) as (d & Hd & D).
      destruct (IH d ltac:(lia) ltac:(lia)) as (r & P & R). exists r. split; [ exact P | ].
      apply Z.divide_trans with d; assumption. }
  apply (G (Z.to_nat (n + 1))); lia.
Qed.

Lemma prime_by_divisors : forall n, 1 < n -> (forall r, prime r -> (r | n) -> n < r * r) -> prime n.
Proof.
  intros n Hn H. destruct (prime_dec n) as [P|NP]; [ exact P | exfalso ].
  destruct (not_prime_divide n Hn NP) as (d & Hd & (e & He)).
  assert (S : exists s, 1 < s /\ s * s <= n /\ (s | n)).
  { destruct (Z_le_gt_dec d e).
    - exists d. split; [ lia | ]. split; [ nia | ]. exists e. exact He.
    - exists e. split; [ nia | ]. split; [ nia | ]. exists d. lia. }
  destruct S as (s & S1 & S2 & S3). destruct (prime_divisor s S1) as (r & P & R).
  assert (r <= s) by (apply Z.divide_pos_le; [ lia | exact R ]).
  specialize (H r P (Z.divide_trans _ _ _ R S3)). destruct P as [P _]. nia.
Qed.

Lemma mod_pow_mod : forall b e n, 0 <= e -> 1 < n -> (b mod n) ^ e mod n = b ^ e mod n.
Proof.
  intros b e n He Hn. symmetry. apply Zpower_mod. lia.
Qed.
Lemma pow_one : forall b e n k, 1 < n -> 0 <= e -> 0 <= k -> b ^ e mod n = 1 -> b ^ (e * k) mod n = 1.
Proof.
  intros b e n k Hn He Hk H. rewrite Z.pow_mul_r by lia. rewrite <- mod_pow_mod by lia.
  rewrite H, Z.pow_1_l by lia. apply Z.mod_1_l. lia.
Qed.
(* orders: if b^x = b^y = 1 then b^gcd = 1 *)
Lemma pow_gcd : forall b n x y, 1 < n -> 0 < x -> 0 < y ->
  b ^ x mod n = 1 -> b ^ y mod n = 1 -> b ^ Z.gcd x y mod n = 1.
Proof.
  intros b n x y Hn Hx Hy H1 H2.
  destruct (Z.gcd_bezout x y (Z.gcd x y) eq_refl) as (u & v & E).
  (* shift the coefficients to be of the right sign *)
  set (t := Z.abs u + Z.abs v + 1).
  assert (T : 0 <= t) by (unfold t; lia).
  pose proof (Z.gcd_nonneg x y) as G.
  (* gcd + x*y*t = x*(u + y*t) + y*v ; choose to write gcd + x*(y*t - ..) *)
  assert (E2 : Z.gcd x y + y * (x * t - v) = x * (u + y * t)).
  { rewrite <- E. ring. }
  assert (A0 : forall w, 0 < w -> t <= w * t) by (intros w Hw; clear - Hw T; nia).
  assert (A1 : 0 <= x * t - v) by (pose proof (A0 x Hx); unfold t in *; lia).
  assert (A2 : 0 <= u + y * t) by (pose proof (A0 y Hy); unfold t in *; lia).
  pose proof (pow_one b x n (u + y * t) Hn ltac:(lia) A2 H1) as P1.
  pose proof (pow_one b y n (x * t - v) Hn ltac:(lia) A1 H2) as P2.
  rewrite <- E2, Z.pow_add_r, Z.mul_mod, P2, Z.mul_1_r, Z.mod_mod in P1 by (try apply Z.mul_nonneg_nonneg; lia).
  exact P1.
Qed.

Fixpoint drop_one (l : list Z) : list Z :=
  match l with
  | [] => []
  | f :: t => zprod t :: map (Z.mul f) (drop_one t)
  end.

(* a divisor of a product of primes that is not the whole product divides one of the
   products with a factor left out *)
Lemma proper_divisor : forall fs g, Forall prime fs -> 0 < g -> (g | zprod fs) -> g <> zprod fs ->
  exists c, In c (drop_one fs) /\ (g | c).
Proof.
  induction fs as [|f fs IH]; intros g Hp Hg D Hne.
  - exfalso. cbn in *. destruct D as (k & Hk). assert (0 < k) by nia. nia.
  - inversion Hp as [|? ? Pf Pfs]; subst. cbn [zprod fold_right] in *. fold (zprod fs) in *.
    assert (F1 : 1 < f) by (destruct Pf; assumption).
    destruct (Zdivide_dec f g) as [(h & Hh)|ND].
    + assert (0 < h) by nia. subst g.
      assert (D' : (h | zprod fs)).
      { destruct D as (k & Hk). exists k. nia. }
      destruct (IH h Pfs ltac:(lia) D') as (c & Hc1 & Hc2); [ intro E; apply Hne; rewrite E; ring | ].
      exists (f * c). split.
      * cbn [drop_one]. right. apply in_map. exact Hc1.
      * destruct Hc2 as (k & ->). exists k. ring.
    + exists (zprod fs). split; [ left; reflexivity | ].
      apply Gauss with f; [ exact D | ].
      apply rel_prime_sym. apply prime_rel_prime; assumption.
Qed.

(* Pocklington, with F = prod fs the factored part, b = a^((n-1)/F) *)
Theorem pocklington : forall n fs b, 1 < n -> Forall prime fs -> n < zprod fs * zprod fs ->
  b ^ zprod fs mod n = 1 ->
  (forall c, In c (drop_one fs) -> exists u, ((b ^ c - 1) * u) mod n = 1) ->
  prime n.
Proof.
  intros n fs b Hn Hp HF Hb Hc. apply prime_by_divisors; [ exact Hn | ].
  intros r Pr Dr. assert (R1 : 1 < r) by (destruct Pr; assumption).
  set (F := zprod fs) in *.
  assert (FP : forall l, Forall prime l -> 0 < zprod l).
  { induction 1 as [|x l Hx Hl IH]; cbn; [ lia | ]. fold (zprod l). destruct Hx. nia. }
  pose proof (FP fs Hp) as F0. fold F in F0.
  assert (MR : forall z, z mod n = 1 -> z mod r = 1).
  { intros z Hz. destruct Dr as (k & Hk).
    assert (Ez : z = 1 + (z / n * k) * r).
    { pose proof (Z.div_mod z n ltac:(lia)) as E. rewrite Hz in E. set (w := z / n) in *. rewrite E, Hk. ring. }
    rewrite Ez, Z.mod_add by lia. apply Z.mod_1_l. lia. }
  pose proof (MR _ Hb) as HbF.
  assert (NB : ~ (r | b)).
  { intros (k & Hk). assert (D : (r | b ^ F)).
    { rewrite Hk. replace F with (Z.succ (F - 1)) by lia. rewrite Z.pow_succ_r by lia.
      exists (k * (k * r) ^ (F - 1)). ring. }
    apply Z.mod_divide in D; lia. }
  pose proof (fermat_units r Pr b NB) as HbR.
  pose proof (pow_gcd b r F (r - 1) R1 F0 ltac:(lia) HbF HbR) as HG.
  assert (G0 : 0 < Z.gcd F (r - 1)).
  { pose proof (Z.gcd_nonneg F (r - 1)). assert (Z.gcd F (r - 1) <> 0); [ | lia ].
    intro E. apply Z.gcd_eq_0_l in E. lia. }
  destruct (Z.eq_dec (Z.gcd F (r - 1)) F) as [E|NE].
  - assert (D : (F | r - 1)) by (rewrite <- E; apply Z.gcd_divide_r).
    apply Z.divide_pos_le in D; [ | lia ]. nia.
  - exfalso. destruct (proper_divisor fs _ Hp G0 (Z.gcd_divide_l F (r - 1)) NE) as (c & Hc1 & Hc2).
    destruct (Hc c Hc1) as (u & Hu). apply MR in Hu.
    assert (C0 : 0 < c).
    { assert (A : forall l, Forall prime l -> forall x, In x (drop_one l) -> 0 < x).
      { induction 1 as [|x l Hx Hl IH]; cbn; [ tauto | ]. intros y [<-|Hy]; [ apply FP; assumption | ].
        apply in_map_iff in Hy. destruct Hy as (z & <- & Hz). specialize (IH z Hz). destruct Hx. nia. }
      apply (A fs Hp). exact Hc1. }
    destruct Hc2 as (k & Hk).
    assert (B1 : b ^ c mod r = 1).
    { rewrite Hk, Z.mul_comm. apply pow_one; [ lia | lia | nia | exact HG ]. }
    rewrite Z.mul_mod, Zminus_mod, B1 in Hu by lia.
    rewrite (Z.mod_1_l r R1), Z.sub_diag, (Z.mod_0_l r), Z.mul_0_l, (Z.mod_0_l r) in Hu by lia. discriminate.
Qed.
