(* p = 2^448 - 2^224 - 1 is prime. *)
From Coq Require Import ZArith List Lia Bool Znumtheory Zpow_facts.
From Verif Require Import SpecField NumTheory.
Import ListNotations.
Open Scope Z_scope.

(* trial division *)
Fixpoint trial (fuel : nat) (d n : Z) : bool :=
  match fuel with
  | O => false
  | S f => if n <? d * d then true else if n mod d =? 0 then false else trial f (d + 1) n
  end.
Lemma trial_ok : forall fuel d n, 1 < d -> trial fuel d n = true ->
  (forall x, 1 < x < d -> ~ (x | n)) -> forall x, 1 < x -> x * x <= n -> ~ (x | n).
Proof.
  induction fuel as [|fuel IH]; intros d n Hd H Hs x Hx Hxx; [ discriminate | ].
  cbn [trial] in H. destruct (Z.ltb_spec n (d * d)).
  - apply Hs. nia.
  - destruct (Z.eqb_spec (n mod d) 0) as [|NE]; [ discriminate | ].
    apply (IH (d + 1) n); auto; [ lia | ].
    intros y Hy. destruct (Z.eq_dec y d) as [->|]; [ | apply Hs; lia ].
    intro D. apply NE. apply Z.mod_divide in D; lia.
Qed.
Lemma small_prime : forall n, (1 <? n) = true -> trial 400 2 n = true -> prime n.
Proof.
  intros n Hn H. apply Z.ltb_lt in Hn. apply prime_by_divisors; [ exact Hn | ].
  intros r Pr D. destruct (Z.lt_ge_cases n (r * r)) as [|G]; [ assumption | exfalso ].
  assert (R1 : 1 < r) by (destruct Pr; assumption).
  apply (trial_ok 400 2 n ltac:(lia) H) with (x := r); auto. intros x Hx. lia.
Qed.

(* modular power *)
Fixpoint pm (n b : Z) (e : positive) : Z :=
  match e with
  | xH => b mod n
  | xO e' => let t := pm n b e' in (t * t) mod n
  | xI e' => let t := pm n b e' in ((t * t) mod n * b) mod n
  end.
Lemma pm_ok : forall n b e, 0 < n -> pm n b e = b ^ Zpos e mod n.
Proof.
  intros n b e Hn. induction e as [e IH|e IH|]; cbn [pm].
  - rewrite IH. rewrite Pos2Z.inj_xI. replace (2 * Zpos e + 1) with (Zpos e + Zpos e + 1) by lia.
    rewrite !Z.pow_add_r, Z.pow_1_r by lia.
    rewrite <- Z.mul_mod, Z.mul_mod_idemp_l by lia. reflexivity.
  - rewrite IH. rewrite Pos2Z.inj_xO. replace (2 * Zpos e) with (Zpos e + Zpos e) by lia.
    rewrite Z.pow_add_r by lia. rewrite <- Z.mul_mod by lia. reflexivity.
  - rewrite Z.pow_1_r. reflexivity.
Qed.
Definition pmz (n b e : Z) : Z := pm n b (Z.to_pos e).

Definition pock_test (n : Z) (fs : list Z) (b : Z) (us : list Z) : bool :=
  (1 <? n) && (n <? zprod fs * zprod fs) && (0 <? zprod fs) && (pmz n b (zprod fs) =? 1)
  && (Nat.eqb (length us) (length (drop_one fs)))
  && forallb (fun cu => (0 <? fst cu) && (((pmz n b (fst cu) - 1) * snd cu) mod n =? 1)) (combine (drop_one fs) us).
Lemma in_combine_ex : forall (A B : Type) (l : list A) (m : list B) x, length m = length l -> In x l ->
  exists y, In (x, y) (combine l m).
Proof.
  induction l as [|a l IH]; intros [|b m] x Hl Hx; try discriminate; [ destruct Hx | ].
  destruct Hx as [->|Hx].
  - exists b. left. reflexivity.
  - destruct (IH m x) as (y & Hy); [ simpl in Hl; congruence | exact Hx | ]. exists y. right. exact Hy.
Qed.
Lemma pock_check : forall n fs b us, Forall prime fs -> pock_test n fs b us = true -> prime n.
Proof.
  intros n fs b us Hp H. unfold pock_test in H.
  rewrite !andb_true_iff in H. destruct H as (((((H1 & H2) & H3) & H4) & H5) & H6).
  apply Z.ltb_lt in H1, H2, H3. apply Z.eqb_eq in H4. apply Nat.eqb_eq in H5.
  assert (PE : forall e, 0 < e -> pmz n b e = b ^ e mod n).
  { intros e He. unfold pmz. rewrite pm_ok by lia. rewrite Z2Pos.id by lia. reflexivity. }
  apply (pocklington n fs b); auto.
  - rewrite <- PE by lia. exact H4.
  - intros c Hc. destruct (in_combine_ex _ _ _ us c H5 Hc) as (u & Hu).
    rewrite forallb_forall in H6. specialize (H6 _ Hu). cbn [fst snd] in H6.
    apply andb_true_iff in H6. destruct H6 as (H6 & H7). apply Z.ltb_lt in H6. apply Z.eqb_eq in H7.
    rewrite PE in H7 by lia. exists u.
    etransitivity; [ | exact H7 ].
    rewrite <- (Z.mul_mod_idemp_l (b ^ c - 1)), <- (Z.mul_mod_idemp_l (b ^ c mod n - 1)) by lia.
    rewrite Zminus_mod_idemp_l. reflexivity.
Qed.

Lemma prime_641 : prime 641.
Proof. apply small_prime; vm_compute; reflexivity. Qed.
Lemma prime_17449 : prime 17449.
Proof. apply small_prime; vm_compute; reflexivity. Qed.
Lemma prime_6700417 : prime 6700417.
Proof.
  apply (pock_check 6700417 [17449] 5846540 [4499094]).
  - apply Forall_cons; [ exact prime_17449 | ]. apply Forall_nil.
  - vm_compute. reflexivity.
Qed.
Lemma prime_47497 : prime 47497.
Proof. apply small_prime; vm_compute; reflexivity. Qed.
Lemma prime_189989 : prime 189989.
Proof.
  apply (pock_check 189989 [47497] 16 [12666]).
  - apply Forall_cons; [ exact prime_47497 | ]. apply Forall_nil.
  - vm_compute. reflexivity.
Qed.
Lemma prime_379979 : prime 379979.
Proof.
  apply (pock_check 379979 [189989] 4 [126660]).
  - apply Forall_cons; [ exact prime_189989 | ]. apply Forall_nil.
  - vm_compute. reflexivity.
Qed.
Lemma prime_271 : prime 271.
Proof. apply small_prime; vm_compute; reflexivity. Qed.
Lemma prime_97859369123353 : prime 97859369123353.
Proof.
  apply (pock_check 97859369123353 [379979; 271] 90492192021163 [41608912195100; 24193097608682]).
  - apply Forall_cons; [ exact prime_379979 | ]. apply Forall_cons; [ exact prime_271 | ]. apply Forall_nil.
  - vm_compute. reflexivity.
Qed.
Lemma prime_167773885276849215533569 : prime 167773885276849215533569.
Proof.
  apply (pock_check 167773885276849215533569 [97859369123353] 43149081517632458470333 [55912800758225171123059]).
  - apply Forall_cons; [ exact prime_97859369123353 | ]. apply Forall_nil.
  - vm_compute. reflexivity.
Qed.
Lemma prime_6197 : prime 6197.
Proof. apply small_prime; vm_compute; reflexivity. Qed.
Lemma prime_61 : prime 61.
Proof. apply small_prime; vm_compute; reflexivity. Qed.
Lemma prime_1335912079 : prime 1335912079.
Proof.
  apply (pock_check 1335912079 [6197; 61] 869177302 [108130948; 412790218]).
  - apply Forall_cons; [ exact prime_6197 | ]. apply Forall_cons; [ exact prime_61 | ]. apply Forall_nil.
  - vm_compute. reflexivity.
Qed.
Lemma prime_32061889897 : prime 32061889897.
Proof.
  apply (pock_check 32061889897 [1335912079] 16777216 [20490923712]).
  - apply Forall_cons; [ exact prime_1335912079 | ]. apply Forall_nil.
  - vm_compute. reflexivity.
Qed.
Lemma prime_25136521679249 : prime 25136521679249.
Proof.
  apply (pock_check 25136521679249 [32061889897] 23416939223833 [18947801997842]).
  - apply Forall_cons; [ exact prime_32061889897 | ]. apply Forall_nil.
  - vm_compute. reflexivity.
Qed.
Lemma prime_9749 : prime 9749.
Proof. apply small_prime; vm_compute; reflexivity. Qed.
Lemma prime_116989 : prime 116989.
Proof.
  apply (pock_check 116989 [9749] 4096 [24312]).
  - apply Forall_cons; [ exact prime_9749 | ]. apply Forall_nil.
  - vm_compute. reflexivity.
Qed.
Lemma prime_1255525949 : prime 1255525949.
Proof.
  apply (pock_check 1255525949 [116989] 806674566 [744224629]).
  - apply Forall_cons; [ exact prime_116989 | ]. apply Forall_nil.
  - vm_compute. reflexivity.
Qed.
Lemma prime_37414057161322375957408148834323969 : prime 37414057161322375957408148834323969.
Proof.
  apply (pock_check 37414057161322375957408148834323969 [25136521679249; 1255525949] 37081246232713030184857603722954392 [26360473500412185258572012786466916; 22305879472907750984994263430620755]).
  - apply Forall_cons; [ exact prime_25136521679249 | ]. apply Forall_cons; [ exact prime_1255525949 | ]. apply Forall_nil.
  - vm_compute. reflexivity.
Qed.

(* multiplication modulo p448 with a reduction by shifts: 2^448 = 2^224 + 1 *)
Definition red (z : Z) : Z :=
  let h := Z.shiftr z 448 in
  let l := Z.land z (Z.ones 448) in
  l + h + Z.shiftl h 224.
Lemma red_ok : forall z, exists k, red z = z - p448 * k.
Proof.
  intro z. exists (Z.shiftr z 448). unfold red. rewrite Z.land_ones by lia.
  rewrite Z.shiftl_mul_pow2, Z.shiftr_div_pow2 by lia.
  pose proof (Z.div_mod z (2 ^ 448) ltac:(lia)) as E. unfold p448.
  set (h := z / 2 ^ 448) in *. set (l := z mod 2 ^ 448) in *. rewrite E. ring.
Qed.
Definition mulr (x y : Z) : Z := red (red (red (x * y))).
Lemma red_mod : forall z, red z mod p448 = z mod p448.
Proof.
  intro z. destruct (red_ok z) as (k & ->). replace (z - p448 * k) with (z + (- k) * p448) by ring.
  apply Z.mod_add. discriminate.
Qed.
Lemma mulr_mod : forall x y, mulr x y mod p448 = (x * y) mod p448.
Proof. intros. unfold mulr. rewrite !red_mod. reflexivity. Qed.

Fixpoint pr (b : Z) (e : positive) : Z :=
  match e with
  | xH => b
  | xO e' => let t := pr b e' in mulr t t
  | xI e' => let t := pr b e' in mulr (mulr t t) b
  end.
Lemma pr_ok : forall b e, pr b e mod p448 = b ^ Zpos e mod p448.
Proof.
  intros b e. induction e as [e IH|e IH|]; cbn [pr].
  - rewrite Pos2Z.inj_xI. replace (2 * Zpos e + 1) with (Zpos e + Zpos e + 1) by lia.
    rewrite !Z.pow_add_r, Z.pow_1_r by lia.
    rewrite mulr_mod, <- Z.mul_mod_idemp_l, mulr_mod, (Z.mul_mod (pr b e)), IH by discriminate.
    rewrite <- Z.mul_mod, Z.mul_mod_idemp_l by discriminate. reflexivity.
  - rewrite Pos2Z.inj_xO. replace (2 * Zpos e) with (Zpos e + Zpos e) by lia.
    rewrite Z.pow_add_r by lia.
    rewrite mulr_mod, (Z.mul_mod (pr b e)), IH by discriminate.
    rewrite <- !Z.mul_mod by discriminate. reflexivity.
  - rewrite Z.pow_1_r. reflexivity.
Qed.
Lemma pr_pow : forall b x e f, 0 <= f -> b mod p448 = x ^ f mod p448 ->
  pr b e mod p448 = x ^ (f * Zpos e) mod p448.
Proof.
  intros b x e f Hf H. rewrite pr_ok, Z.pow_mul_r by lia.
  rewrite (Zpower_mod b), H, <- Zpower_mod by (unfold p448; lia). reflexivity.
Qed.

(* b^(F/f) for the four f, and b^F, sharing subproducts *)
Definition p_test (b : Z) (f1 f2 f3 f4 : positive) (u1 u2 u3 u4 : Z) : bool :=
  let b12 := pr (pr b f1) f2 in
  let b34 := pr (pr b f3) f4 in
  let c1 := pr b34 f2 in
  let c2 := pr b34 f1 in
  let c3 := pr b12 f4 in
  let c4 := pr b12 f3 in
  let bf := pr c1 f1 in
  (bf mod p448 =? 1)
  && (((c1 - 1) * u1) mod p448 =? 1)
  && (((c2 - 1) * u2) mod p448 =? 1)
  && (((c3 - 1) * u3) mod p448 =? 1)
  && (((c4 - 1) * u4) mod p448 =? 1).

Lemma p_test_ok : forall b f1 f2 f3 f4 u1 u2 u3 u4, p_test b f1 f2 f3 f4 u1 u2 u3 u4 = true ->
  prime (Zpos f1) -> prime (Zpos f2) -> prime (Zpos f3) -> prime (Zpos f4) ->
  p448 < zprod [Zpos f1; Zpos f2; Zpos f3; Zpos f4] * zprod [Zpos f1; Zpos f2; Zpos f3; Zpos f4] ->
  prime p448.
Proof.
  intros b f1 f2 f3 f4 u1 u2 u3 u4 H P1 P2 P3 P4 HF.
  unfold p_test in H. cbv zeta in H.
  rewrite !andb_true_iff in H. destruct H as ((((H0 & H1) & H2) & H3) & H4).
  apply Z.eqb_eq in H0, H1, H2, H3, H4.
  assert (B0 : b mod p448 = b ^ 1 mod p448) by (rewrite Z.pow_1_r; reflexivity).
  assert (B12 : pr (pr b f1) f2 mod p448 = b ^ (1 * Zpos f1 * Zpos f2) mod p448).
  { apply pr_pow; [ lia | ]. apply pr_pow; [ lia | exact B0 ]. }
  assert (B34 : pr (pr b f3) f4 mod p448 = b ^ (1 * Zpos f3 * Zpos f4) mod p448).
  { apply pr_pow; [ lia | ]. apply pr_pow; [ lia | exact B0 ]. }
  assert (W : forall c u e e', c mod p448 = b ^ e mod p448 -> e' = e -> ((c - 1) * u) mod p448 = 1 ->
             ((b ^ e' - 1) * u) mod p448 = 1).
  { intros c u e e' E -> Hu. etransitivity; [ | exact Hu ].
    rewrite <- (Z.mul_mod_idemp_l (b ^ e - 1)), <- (Z.mul_mod_idemp_l (c - 1)) by discriminate.
    rewrite <- Zminus_mod_idemp_l, <- E, Zminus_mod_idemp_l. reflexivity. }
  apply (pocklington p448 [Zpos f1; Zpos f2; Zpos f3; Zpos f4] b).
  - reflexivity.
  - apply Forall_cons; [ exact P1 | ]. apply Forall_cons; [ exact P2 | ].
    apply Forall_cons; [ exact P3 | ]. apply Forall_cons; [ exact P4 | apply Forall_nil ].
  - exact HF.
  - etransitivity; [ | exact H0 ]. symmetry.
    replace (zprod [Zpos f1; Zpos f2; Zpos f3; Zpos f4]) with (1 * Zpos f3 * Zpos f4 * Zpos f2 * Zpos f1)
      by (cbn [zprod fold_right]; ring).
    apply pr_pow; [ lia | ]. apply pr_pow; [ lia | exact B34 ].
  - cbn [drop_one map In zprod fold_right]. intros c Hc.
    destruct Hc as [<-|[<-|[<-|[<-|[]]]]].
    + exists u1. apply (W (pr (pr (pr b f3) f4) f2) u1 (1 * Zpos f3 * Zpos f4 * Zpos f2)); [ | ring | exact H1 ].
      apply pr_pow; [ lia | exact B34 ].
    + exists u2. apply (W (pr (pr (pr b f3) f4) f1) u2 (1 * Zpos f3 * Zpos f4 * Zpos f1)); [ | ring | exact H2 ].
      apply pr_pow; [ lia | exact B34 ].
    + exists u3. apply (W (pr (pr (pr b f1) f2) f4) u3 (1 * Zpos f1 * Zpos f2 * Zpos f4)); [ | ring | exact H3 ].
      apply pr_pow; [ lia | exact B12 ].
    + exists u4. apply (W (pr (pr (pr b f1) f2) f3) u4 (1 * Zpos f1 * Zpos f2 * Zpos f3)); [ | ring | exact H4 ].
      apply pr_pow; [ lia | exact B12 ].
Qed.

Theorem p448_prime : prime p448.
Proof.
  apply (p_test_ok
    573961110554666176017270108492790428656216017171484283463151506364505223359459964816329303641428003214290897202439163341711075205489164
    641 6700417 167773885276849215533569 37414057161322375957408148834323969
    476302010379064564199143414426810145520438722312081862479437005338404746876108504160078543589085799967263214219050382064292950460276715
    87459619211994745206270770130992218988597292295778604333354984342184077292278799974084005379836033226200106937952444083486161433917724
    501788639088368826987400606481767918276057647070744111966357515498496197208259609929578546273395592909823544835784940147559659365465460
    519518080572253603367051247665846755713605907580011593346876370765869096000338358463558345755733082510164841518241698999535429907019721).
  - vm_compute. reflexivity.
  - exact prime_641.
  - exact prime_6700417.
  - exact prime_167773885276849215533569.
  - exact prime_37414057161322375957408148834323969.
  - vm_compute. reflexivity.
Qed.
