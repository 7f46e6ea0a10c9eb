(* The points of the curve are the i B + j (1, 0) with 0 <= i < q and 0 <= j < 4, all different: 4 q points.
   What this says about public keys: every one has exactly one secret scalar modulo q; those of
   expanded-secret keys are 2^445 points; the strings that stand for points of small order. *)
From Coq Require Import ZArith List Bool Lia Znumtheory Ring.
From Verif Require Import SpecField SpecBytes SpecScalar SpecCurve SpecDecode SpecEd448 SpecUniform.
From Verif Require Import Base Bytes Errors ExtendedPoint Eddsa Goldilocks.
From Verif Require Import Field Edwards Isogeny CombMul BaseTables PrimeQ Decode Torsion Ed448 Order Equation Facts Kernel Uniform Count Protocol.
Import ListNotations.
Open Scope Z_scope.

Lemma on_B : forall n, on_curve (emul n ebase).
Proof. intro. apply emul_on. exact ebase_on. Qed.
Lemma on_T : forall n, on_curve (emul n pt4).
Proof. intro. apply emul_on. exact pt4_on. Qed.
Lemma four_coprime : ~ (q448 | 4).
Proof. intro D. apply Z.divide_pos_le in D; [ | lia ]. revert D. vm_compute. intro D. apply D. reflexivity. Qed.

(* a point killed by q with a small multiple among the i B + j (1, 0) *)
Lemma q_part : forall P c i j, on_curve P -> emul q448 P = ezero -> c = 1 \/ c = 2 ->
  emul c P = eadd (emul i ebase) (emul j pt4) -> exists x, P = emul x ebase.
Proof.
  intros P c i j HP Hq Hc E.
  assert (E4 : emul (4 * c) P = emul (4 * i) ebase).
  { rewrite (emul_mul 4 c), E by exact HP. rewrite emul_eadd by (apply on_B || apply on_T). rewrite <- (emul_mul 4 i) by exact ebase_on.
    rewrite <- (emul_mul 4 j), (Z.mul_comm 4 j), (emul_mul j 4), pt4_4, emul_ezero by exact pt4_on. apply eadd_0_r. }
  assert (ND : (4 * c) mod q448 <> 0).
  { intro Z0. apply Z.mod_divide in Z0; [ | discriminate ]. apply Z.divide_pos_le in Z0; [ | lia ].
    assert (8 < q448) by reflexivity. lia. }
  destruct (inverse_q (4 * c) ND) as (b & Hb). exists (b * (4 * i)).
  rewrite (emul_mul b) by exact ebase_on. rewrite <- E4, <- emul_mul, (Z.mul_comm b) by exact HP.
  rewrite <- (emul_mod (4 * c * b) q448 P HP Hq) by discriminate. rewrite Hb. symmetry. apply emul_1.
Qed.
(* B and (1, 0) are independent *)
Lemma base_pt4 : forall i j, ezero = eadd (emul i ebase) (emul j pt4) -> (q448 | i) /\ (4 | j).
Proof.
  intros i j E.
  assert (E4 : emul (4 * i) ebase = ezero).
  { pose proof (f_equal (emul 4) E) as K. rewrite emul_ezero, emul_eadd in K by (apply on_B || apply on_T).
    rewrite <- (emul_mul 4 j), (Z.mul_comm 4 j), (emul_mul j 4), pt4_4, emul_ezero, eadd_0_r in K by exact pt4_on.
    rewrite emul_mul by exact ebase_on. symmetry. exact K. }
  apply base_order in E4. apply Gauss in E4; [ | apply prime_rel_prime; [ exact q448_prime | exact four_coprime ] ].
  split; [ exact E4 | ]. rewrite (proj2 (base_order i) E4), eadd_0_l in E. apply pt4_zero. symmetry. exact E.
Qed.
Lemma small_div : forall n i j, 0 <= i < n -> 0 <= j < n -> (n | i - j) -> i = j.
Proof. intros n i j Hi Hj (c & Hc). assert (c = 0) by nia. subst c. lia. Qed.
Lemma ept_dec : forall P Q : ept, {P = Q} + {P <> Q}.
Proof.
  intros (a, b) (c, d). destruct (F_dec a c) as [->|N]; [ destruct (F_dec b d) as [->|N] | ]; [ left; reflexivity | right; intro E; apply N .. ].
  - exact (f_equal snd E).
  - exact (f_equal fst E).
Qed.

Lemma in_below : forall n i, In i (below n) <-> 0 <= i < n.
Proof.
  intros n i. unfold below. rewrite in_map_iff. split.
  - intros (k & <- & Hk). apply in_seq in Hk. lia.
  - intro H. exists (Z.to_nat i). split; [ lia | ]. apply in_seq. lia.
Qed.
Lemma below_nodup : forall n, NoDup (below n).
Proof. intro n. unfold below. apply nodup_map; [ intros; lia | apply seq_NoDup ]. Qed.
Lemma below_length : forall n, 0 <= n -> Z.of_nat (length (below n)) = n.
Proof. intros n H. unfold below. rewrite map_length, seq_length. lia. Qed.
Local Opaque below.
(* the points killed by q are the multiples of B *)
Theorem q_points : forall P, on_curve P -> emul q448 P = ezero -> exists x, 0 <= x < q448 /\ P = emul x ebase.
Proof.
  intros P HP Hq. destruct (in_dec ept_dec P (map (fun i => emul i ebase) (below q448))) as [ I | N ].
  - apply in_map_iff in I. destruct I as (x & E & Hx). exists x. split; [ apply in_below; exact Hx | symmetry; exact E ].
  - exfalso. assert (NX : forall x, P <> emul x ebase).
    { intros x E. apply N. apply in_map_iff. exists (x mod q448). split.
      - rewrite E. apply base_inj. apply Z.mod_mod. discriminate.
      - apply in_below. apply Z.mod_pos_bound. reflexivity. }
    assert (C : 12 * q448 <= 2 * p448).
    { apply (count (fun t => code (spread P t))); [ discriminate | discriminate | intro t; apply fval_range | ].
      intros i j k i' j' k' Hi Hi' Hj Hj' Hk Hk' E. apply code_inj in E; [ | apply spread_on; exact HP | apply spread_on; exact HP ].
      assert (M : forall i j k i' j' k', spread P (i, j, k) = spread P (i', j', k') -> 0 <= k < 3 -> 0 <= k' < 3 -> k' <= k).
      { clear - NX HP Hq. intros i j k i' j' k' E Hk Hk'. apply Z.nlt_ge. intro L. apply spread_eq in E; [ | exact HP ].
        destruct (q_part P (k' - k) _ _ HP Hq ltac:(lia) E) as (x & Hx). exact (NX x Hx). }
      assert (k = k') by (pose proof (M _ _ _ _ _ _ E Hk Hk'); pose proof (M _ _ _ _ _ _ (eq_sym E) Hk' Hk); lia). subst k'. clear M.
      apply spread_eq in E; [ | exact HP ]. rewrite Z.sub_diag, emul_0 in E.
      destruct (base_pt4 _ _ E) as (D1 & D2). rewrite (small_div _ _ _ Hi Hi' D1), (small_div _ _ _ Hj Hj' D2). reflexivity. }
    revert C. vm_compute. intro C. apply C. reflexivity.
Qed.

Open Scope F_scope.
Lemma sq_one : forall a, a * a = 1 -> a = 1 \/ a = - (1).
Proof.
  intros a E. assert (Z0 : (a - 1) * (a + 1) = 0) by (replace ((a - 1) * (a + 1)) with (a * a - 1) by ring; rewrite E; ring).
  apply fmul_zero in Z0. destruct Z0 as [ Z0 | Z0 ]; [ left | right ].
  - replace a with (a - 1 + 1) by ring. rewrite Z0. ring.
  - replace a with (a + 1 - 1) by ring. rewrite Z0. ring.
Qed.
Lemma pt4_3 : emul 3 pt4 = (- (1), 0).
Proof.
  change 3%Z with (Z.opp 1 + 4)%Z. rewrite emul_add, pt4_4, eadd_0_r, emul_opp, emul_1 by exact pt4_on.
  Transparent eneg. unfold pt4, eneg. Opaque eneg. reflexivity.
Qed.
(* the points killed by 4 *)
Theorem four_points : forall T, on_curve T -> emul 4 T = ezero -> exists j, (0 <= j < 4)%Z /\ T = emul j pt4.
Proof.
  intros (x, y) HT E. destruct (torsion4 x y HT E) as [ (-> & Y) | (-> & X) ].
  - destruct (sq_one y Y) as [ -> | -> ]; [ exists 0%Z | exists 2%Z ]; (split; [ lia | ]).
    + rewrite emul_0. Transparent ezero. unfold ezero. Opaque ezero. reflexivity.
    + symmetry. exact pt4_2.
  - destruct (sq_one x X) as [ -> | -> ]; [ exists 1%Z | exists 3%Z ]; (split; [ lia | ]).
    + symmetry. apply emul_1.
    + symmetry. exact pt4_3.
Qed.
Close Scope F_scope.

Definition span (t : Z * Z) : ept := eadd (emul (fst t) ebase) (emul (snd t) pt4).
Lemma span_on : forall t, on_curve (span t).
Proof. intro t. apply eadd_on; [ apply on_B | apply on_T ]. Qed.
Lemma span_inj : forall i j i' j', 0 <= i < q448 -> 0 <= i' < q448 -> 0 <= j < 4 -> 0 <= j' < 4 -> span (i, j) = span (i', j') -> (i, j) = (i', j').
Proof.
  intros i j i' j' Hi Hi' Hj Hj' E.
  assert (K : spread ezero (i, j, 0) = spread ezero (i', j', 0)) by (unfold spread; cbn [fst snd]; unfold span in E; cbn [fst snd] in E; rewrite E; reflexivity).
  apply spread_eq in K; [ | exact ezero_on ]. rewrite Z.sub_diag, emul_0 in K. destruct (base_pt4 _ _ K) as (D1 & D2).
  rewrite (small_div _ _ _ Hi Hi' D1), (small_div _ _ _ Hj Hj' D2). reflexivity.
Qed.
(* every point is one of them *)
Theorem span_all : forall P, on_curve P -> exists i j, 0 <= i < q448 /\ 0 <= j < 4 /\ P = span (i, j).
Proof.
  intros P HP.
  assert (HS : on_curve (subgroup_part P)) by (apply emul_on; exact HP).
  destruct (q_points (subgroup_part P) HS (subgroup_q P HP)) as (i & Hi & Ei).
  assert (HN : on_curve (emul (- q448) P)) by (apply emul_on; exact HP).
  destruct (four_points (emul (- q448) P) HN) as (j & Hj & Ej).
  { rewrite <- emul_mul by exact HP. replace (4 * - q448) with (- (1) * (4 * q448)) by ring. rewrite emul_mul, order_4q by exact HP. apply emul_ezero. }
  exists i, j. split; [ exact Hi | split; [ exact Hj | ] ]. unfold span. cbn [fst snd]. rewrite <- Ei, <- Ej. unfold subgroup_part.
  rewrite <- emul_add by exact HP. replace (q448 + 1 + - q448) with 1 by ring. symmetry. apply emul_1.
Qed.
(* the number of points *)
Theorem point_count : exists l, NoDup l /\ (forall P, In P l <-> on_curve P) /\ Z.of_nat (length l) = 4 * q448.
Proof.
  exists (map span (list_prod (below q448) (below 4))). split; [ | split ].
  - apply nodup_map; [ | apply nodup_prod; apply below_nodup ]. intros (i, j) (i', j') H H' E.
    apply in_prod_iff in H. apply in_prod_iff in H'. destruct H as (H1 & H2). destruct H' as (H1' & H2').
    apply span_inj; try (apply in_below; assumption). exact E.
  - intro P. rewrite in_map_iff. split.
    + intros (t & <- & _). apply span_on.
    + intro H. destruct (span_all P H) as (i & j & Hi & Hj & ->). exists (i, j). split; [ reflexivity | ]. apply in_prod; apply in_below; assumption.
  - rewrite map_length, prod_length, Nat2Z.inj_mul, !below_length by discriminate. apply Z.mul_comm.
Qed.

(* public keys: one secret scalar modulo q *)
Theorem key_log : forall src A p, bytes src -> denotes src A -> eddsa_like_decode src = Some (Ok p) ->
  exists x, 0 <= x < q448 /\ subgroup_part A = emul x ebase /\ eddsa_like_encode p = Some (eencode (emul x ebase)) /\
  forall x', 0 <= x' < q448 -> eddsa_like_encode p = Some (eencode (emul x' ebase)) -> x' = x.
Proof.
  intros src A p B N D. pose proof (proj1 N) as CA.
  assert (CS : on_curve (subgroup_part A)) by (apply emul_on; exact CA).
  destruct (q_points _ CS (subgroup_q A CA)) as (x & Hx & E). exists x. split; [ exact Hx | ]. split; [ exact E | ].
  assert (DE : decodable src) by exact (proj1 (decode_iff src B) p D).
  destruct (encode_decode_gen src A B DE N) as (p' & D' & EN). rewrite D in D'. injection D' as <-. rewrite E in EN.
  split; [ exact EN | ]. intros x' Hx' EN'. rewrite EN in EN'. apply some_inj in EN'. apply eencode_inj in EN'; [ | apply on_B | apply on_B ].
  apply base_inj in EN'. rewrite !Z.mod_small in EN' by assumption. symmetry. exact EN'.
Qed.

(* public keys of expanded-secret keys *)
Lemma scalar_of : forall t, 0 <= t < 2 ^ 445 -> exists key, length key = 57%nat /\ bytes key /\ enc_sign key = true /\ secret_scalar key = 2 ^ 447 + 4 * t.
Proof.
  intros t Ht. exists (le_bytes 56 (4 * t) ++ [128]). split; [ rewrite app_length, le_bytes_length; reflexivity | ].
  split; [ apply bytes_app; split; [ apply le_bytes_bytes | repeat constructor; lia ] | ]. split.
  - unfold enc_sign. rewrite app_nth2 by (rewrite le_bytes_length; lia). rewrite le_bytes_length. reflexivity.
  - unfold secret_scalar. rewrite firstn_app, le_bytes_length, Nat.sub_diag, firstn_O, app_nil_r, firstn_all2 by (rewrite le_bytes_length; lia).
    rewrite le_val_le_bytes. change (256 ^ Z.of_nat 56) with (2 ^ 448). rewrite (Z.mod_small (4 * t)), (Z.mod_small (4 * t)) by lia.
    rewrite (Z.mul_comm 4 t), Z.div_mul by lia. ring.
Qed.

Lemma scalar_t : forall h, exists t, 0 <= t < 2 ^ 445 /\ secret_scalar h = 2 ^ 447 + 4 * t.
Proof.
  intro h. unfold secret_scalar. exists (le_val (firstn 56 h) mod 2 ^ 447 / 4). split; [ | reflexivity ].
  pose proof (Z.mod_pos_bound (le_val (firstn 56 h)) (2 ^ 447) eq_refl) as R.
  split; [ apply Z.div_pos; lia | ]. apply Z.div_lt_upper_bound; lia.
Qed.
Lemma scalar_t_inj : forall t t', 0 <= t < 2 ^ 445 -> 0 <= t' < 2 ^ 445 -> emul (2 ^ 447 + 4 * t) ebase = emul (2 ^ 447 + 4 * t') ebase -> t = t'.
Proof.
  intros t t' H H' E. apply base_inj in E.
  assert (D : (q448 | 4 * (t - t'))).
  { replace (4 * (t - t')) with ((2 ^ 447 + 4 * t) - (2 ^ 447 + 4 * t')) by ring. apply Z.mod_divide; [ discriminate | ].
    rewrite Zminus_mod, E, Z.sub_diag. reflexivity. }
  apply Gauss in D; [ | apply prime_rel_prime; [ exact q448_prime | exact four_coprime ] ].
  assert (Q : 2 ^ 445 < q448) by reflexivity. apply (small_div q448); [ lia | lia | exact D ].
Qed.
Section Hash.
Variable xof : list Z -> nat -> list Z.
Hypothesis X : is_xof xof.
(* the public keys of all keys together *)
Theorem public_keys : forall pub,
  (exists key, length key = 57%nat /\ bytes key /\ ed448_derive_public xof key = Some pub) <->
  exists t, 0 <= t < 2 ^ 445 /\ pub = eencode (emul (2 ^ 447 + 4 * t) ebase).
Proof.
  intro pub. split.
  - intros (key & L & B & E). rewrite (key_public xof X key L B) in E. apply some_inj in E. unfold key_scalar in E.
    destruct (scalar_t (if enc_sign key then key else xof key 114%nat)) as (t & Ht & S). exists t. split; [ exact Ht | ]. rewrite <- S. symmetry. exact E.
  - intros (t & Ht & ->). destruct (scalar_of t Ht) as (key & L & B & G & S). exists key. split; [ exact L | split; [ exact B | ] ].
    rewrite (key_public xof X key L B). unfold key_scalar. rewrite G, S. reflexivity.
Qed.
Theorem public_count : exists l, NoDup l /\ Z.of_nat (length l) = 2 ^ 445 /\
  forall pub, In pub l <-> exists key, length key = 57%nat /\ bytes key /\ ed448_derive_public xof key = Some pub.
Proof.
  exists (map (fun t => eencode (emul (2 ^ 447 + 4 * t) ebase)) (below (2 ^ 445))). split; [ | split ].
  - apply nodup_map; [ | apply below_nodup ]. intros t t' H H' E. apply (proj1 (in_below _ _)) in H. apply (proj1 (in_below _ _)) in H'.
    apply eencode_inj in E; [ | apply on_B | apply on_B ]. exact (scalar_t_inj t t' H H' E).
  - rewrite map_length. apply below_length. discriminate.
  - intro pub. rewrite public_keys, in_map_iff. split.
    + intros (t & E & Ht). exists t. split; [ apply (proj1 (in_below _ _)); exact Ht | symmetry; exact E ].
    + intros (t & Ht & E). exists t. split; [ symmetry; exact E | apply (proj2 (in_below _ _)); exact Ht ].
Qed.
(* the base point itself is the public key of no key *)
Theorem base_no_key : forall key, length key = 57%nat -> bytes key -> ed448_derive_public xof key <> Some (eencode ebase).
Proof.
  intros key L B E. destruct (proj1 (public_keys (eencode ebase)) (ex_intro _ key (conj L (conj B E)))) as (t & Ht & K).
  apply eencode_inj in K; [ | exact ebase_on | apply on_B ]. rewrite <- (emul_1 ebase) in K at 1. apply base_inj in K.
  assert (D : (q448 | 2 ^ 447 - 1 + 4 * t)).
  { apply Z.mod_divide; [ discriminate | ]. replace (2 ^ 447 - 1 + 4 * t) with ((2 ^ 447 + 4 * t) - 1) by ring. rewrite Zminus_mod, <- K, Z.sub_diag. reflexivity. }
  destruct D as (c & Hc).
  (* c q = 2^447 - 1 + 4 t with 0 <= t < 2^445: c is 2, 3 or 4, but then c q is not 3 modulo 4 *)
  assert (Q1 : q448 < 2 ^ 447 - 1) by reflexivity. assert (Q2 : 2 ^ 447 - 1 + 4 * 2 ^ 445 < 5 * q448) by reflexivity.
  assert (M : (c * q448) mod 4 = 3).
  { rewrite <- Hc. replace (2 ^ 447 - 1 + 4 * t) with (3 + (2 ^ 445 - 1 + t) * 4) by ring. rewrite Z.mod_add by discriminate. reflexivity. }
  assert (C : c = 2 \/ c = 3 \/ c = 4).
  { clear - Hc Q1 Q2 Ht. revert Hc Q1 Q2 Ht. generalize q448 (2 ^ 447) (2 ^ 445). intros q a b Hc Q1 Q2 Ht. nia. }
  destruct C as [ -> | [ -> | -> ] ]; revert M; apply Z.eqb_neq; vm_compute; reflexivity.
Qed.
End Hash.
