(* The precomputed tables of the crate hold the multiples of the base point they should hold, and the
   base point has order q. *)
From Coq Require Import ZArith List Bool Lia Ring Field.
From Verif Require Import SpecField SpecCurve SpecScalar Base Constants32 Niels CombTable WnafTable ExtendedPoint.
From Verif Require Import Bytes LimbKara LimbMul LimbOps LimbOps2 Field FieldOps Edwards Isogeny PointOps ScalarProofs CombMul FastF BaseHints.
Import ListNotations.
Open Scope Z_scope.

Definition zbase : zpt :=
  (224580040295924300187604334099896036246789641632564134246125461686950415467406032909029192869357953282578032075146446173674602635247710,
   298819210078481492676017930443930673437544040154080242095928241372331506189835876003536878655418784733982303233503462500531545062832660).
Definition zall : list zpt := zbase :: dbl_hints.
Lemma zbase_ok : zF zbase = emul 1 ebase.
Proof. rewrite emul_1. reflexivity. Qed.
Lemma dbl_ok : chk_chain zbase dbl_hints = true.
Proof. vm_cast_no_check (eq_refl true). Qed.
Lemma zall_ok : forall i d, (i < length zall)%nat -> zF (nth i zall d) = emul (2 ^ Z.of_nat i) ebase.
Proof.
  intros i d Hi. unfold zall. rewrite (chain_ok dbl_hints zbase 1 ebase ebase_on zbase_ok dbl_ok i d Hi).
  rewrite Z.mul_1_r. reflexivity.
Qed.
Definition walk_check (i : nat) (l : list (bool * nat * zpt)) : bool :=
  (i <? length zall)%nat && chk_walk zall (nth i zall (0, 1)) l.
Definition walk_points (i : nat) (l : list (bool * nat * zpt)) : list (Z * zpt) :=
  walk (2 ^ Z.of_nat i) (nth i zall (0, 1)) l.
Lemma walk_points_ok : forall i l, walk_check i l = true ->
  Forall (fun e => zF (snd e) = emul (fst e) ebase) (walk_points i l).
Proof.
  intros i l H. apply andb_prop in H. destruct H as (H1 & H2). apply Nat.ltb_lt in H1.
  apply (walk_ok zall ebase ebase_on zall_ok); [ apply zall_ok; exact H1 | exact H2 ].
Qed.

(* a cached point against the point it should stand for *)
Definition limb_le (m : Z) (a : bn) : bool :=
  let ck x := (0 <=? x) && (x <=? m) in
  match a with
  | BN x0 x1 x2 x3 x4 x5 x6 x7 x8 x9 x10 x11 x12 x13 x14 x15 =>
      ck x0 && ck x1 && ck x2 && ck x3 && ck x4 && ck x5 && ck x6 && ck x7 &&
      ck x8 && ck x9 && ck x10 && ck x11 && ck x12 && ck x13 && ck x14 && ck x15
  end.
Lemma limb_le_ok : forall m a, limb_le m a = true -> bn_le m a.
Proof.
  intros m [x0 x1 x2 x3 x4 x5 x6 x7 x8 x9 x10 x11 x12 x13 x14 x15]. unfold limb_le, bn_le. cbv zeta.
  rewrite !andb_true_iff, !Z.leb_le. tauto.
Qed.
Definition chk_niels (n : niels) (P : zpt) : bool :=
  let (x, y) := P in
  let xx := sqrp x in
  let yy := sqrp y in
  let s := xx + yy in
  let xy2 := sqrp (x + y) - s in
  let A := ev (na n) in
  let B := ev (nb n) in
  let X := B - A in
  let Y := A + B in
  let u := mulp X (yy - xx) in
  let v := mulp Y (2 - s) in
  limb_le TIGHT (na n) && limb_le TIGHT (nb n) && limb_le TIGHT (nc n) &&
  (eqp u (- xy2) && eqp v s || eqp u xy2 && eqp v (- s)) &&
  eqp (ev (nc n)) (-39082 * mulp X Y).
Strategy -100 [chk_niels].
Open Scope F_scope.
Lemma chk_niels_F : forall n x y, chk_niels n (x, y) = true -> tight_niels n /\
  exists e, e * e = 1 /\
    (F (nb n) - F (na n)) * (mkF y * mkF y - mkF x * mkF x) = - e * (mkF 2 * mkF x * mkF y) /\
    (F (na n) + F (nb n)) * (mkF 2 - (mkF x * mkF x + mkF y * mkF y)) = e * (mkF x * mkF x + mkF y * mkF y) /\
    F (nc n) = twd * ((F (nb n) - F (na n)) * (F (na n) + F (nb n))).
Proof.
  intros n x y H. cbv beta iota zeta delta [chk_niels] in H.
  apply andb_prop in H. destruct H as (H & HC). apply andb_prop in H. destruct H as (H & HE).
  apply andb_prop in H. destruct H as (H & T3). apply andb_prop in H. destruct H as (T1 & T2).
  split; [ unfold tight_niels, tight; auto using limb_le_ok | ].
  apply eqp_ok in HC. rewrite mkF_mul, mulp_ok, mkF_sub, mkF_add in HC.
  fold (F (na n)) (F (nb n)) (F (nc n)) in HC. rewrite twd_val.
  assert (G : (mkF (ev (nb n)) = F (nb n)) /\ mkF (ev (na n)) = F (na n)) by (split; reflexivity).
  destruct G as (G1 & G2).
  apply orb_prop in HE. destruct HE as [HE|HE]; apply andb_prop in HE; destruct HE as (A & B);
    apply eqp_ok in A; apply eqp_ok in B.
  - rewrite mulp_ok, mkF_opp, !mkF_sub, !mkF_add, !sqrp_ok, mkF_add, G1, G2 in A.
    rewrite mulp_ok, !mkF_sub, !mkF_add, !sqrp_ok, G1, G2 in B.
    exists 1. split; [ ring | ]. split; [ rewrite A; ring | ]. split; [ rewrite B; ring | exact HC ].
  - rewrite mulp_ok, !mkF_sub, !mkF_add, !sqrp_ok, mkF_add, G1, G2 in A.
    rewrite mulp_ok, mkF_opp, !mkF_sub, !mkF_add, !sqrp_ok, G1, G2 in B.
    exists (- (1)). split; [ ring | ]. split; [ rewrite A; ring | ]. split; [ rewrite B; ring | exact HC ].
Qed.
Lemma chk_niels_ok : forall n P Q, on_curve Q -> zF P = Q -> chk_niels n P = true -> isN n Q.
Proof.
  intros n (x, y) Q HQ <- H. apply chk_niels_F in H. destruct H as (HT & e & He & HA & HB & HC).
  split; [ exact HT | ]. unfold zF in *. cbn [fst snd] in *. unfold repN.
  pose proof (phi_t_nz _ _ HQ) as Nt. pose proof (phi_w_nz _ _ HQ) as Nw.
  Transparent phi. unfold phi. cbn [fst snd].
  set (X := mkF x) in *. set (Y := mkF y) in *. clearbody X Y.
  assert (E1 : F (nb n) - F (na n) = e * (- (mkF 2 * X * Y) / (Y * Y - X * X))).
  { apply (fmul_cancel (Y * Y - X * X)); [ exact Nt | ].
    transitivity (- e * (mkF 2 * X * Y)); [ rewrite <- HA; ring | field; exact Nt ]. }
  assert (E2 : F (na n) + F (nb n) = e * ((X * X + Y * Y) / (mkF 2 - (X * X + Y * Y)))).
  { apply (fmul_cancel (mkF 2 - (X * X + Y * Y))); [ exact Nw | ].
    transitivity (e * (X * X + Y * Y)); [ rewrite <- HB; ring | field; exact Nw ]. }
  set (a := - (mkF 2 * X * Y) / (Y * Y - X * X)) in *. set (b := (X * X + Y * Y) / (mkF 2 - (X * X + Y * Y))) in *.
  clearbody a b. split; [ exact HQ | ]. split; [ exact fone_nz | ].
  exists e. split; [ exact He | ]. split; [ | split ].
  - transitivity ((F (na n) + F (nb n)) - (F (nb n) - F (na n))); [ ring | rewrite E1, E2; ring ].
  - transitivity ((F (na n) + F (nb n)) + (F (nb n) - F (na n))); [ ring | rewrite E1, E2; ring ].
  - rewrite HC, E1, E2. transitivity (twd * ((e * e) * (a * b))); [ ring | rewrite He; ring ].
Qed.
Opaque phi.
Open Scope Z_scope.

(* table entries i, i+1, ... against the multiples f i, f (i+1), ... found among the points of a walk *)
Fixpoint chk_entries (pts : list (Z * zpt)) (f : Z -> Z) (i : Z) (l : list niels) : bool :=
  match l with
  | [] => true
  | n :: t =>
      match zfind (f i) pts with
      | Some P => chk_niels n P
      | None => false
      end && chk_entries pts f (i + 1) t
  end.
Lemma chk_entries_ok : forall pts f l i, Forall (fun e => zF (snd e) = emul (fst e) ebase) pts ->
  chk_entries pts f i l = true ->
  forall k d, (k < length l)%nat -> isN (nth k l d) (emul (f (i + Z.of_nat k)) ebase).
Proof.
  intros pts f. induction l as [|n l IH]; intros i HP H k d Hk; [ cbn [length] in Hk; lia | ].
  cbn [chk_entries] in H. apply andb_prop in H. destruct H as (H1 & H2).
  destruct k as [|k].
  - cbn [nth]. change (Z.of_nat 0) with 0. rewrite Z.add_0_r.
    destruct (zfind (f i) pts) as [P|] eqn:E; [ | discriminate H1 ].
    apply (chk_niels_ok n P); [ apply emul_on, ebase_on | apply (zfind_ok ebase _ _ _ HP E) | exact H1 ].
  - cbn [nth]. replace (i + Z.of_nat (S k)) with (i + 1 + Z.of_nat k) by lia.
    apply IH; [ exact HP | exact H2 | cbn [length] in Hk; lia ].
Qed.

(* the wNAF table *)
Lemma wnaf_walk_ok : walk_check 0 wnaf_hints = true.
Proof. vm_cast_no_check (eq_refl true). Qed.
Lemma wnaf_entries_ok : chk_entries (walk_points 0 wnaf_hints) (fun i => 2 * i + 1) 0 DECAF_WNAF_TABLE = true.
Proof. vm_cast_no_check (eq_refl true). Qed.
Lemma wnaf_table_ok : forall i, 0 <= i < 32 ->
  exists n, znth DECAF_WNAF_TABLE i = Some n /\ isN n (emul (2 * i + 1) ebase).
Proof.
  intros i Hi. pose proof wnaf_walk_ok as H1. pose proof wnaf_entries_ok as H2.
  exists (nth (Z.to_nat i) DECAF_WNAF_TABLE (Niels BIG_ZERO BIG_ZERO BIG_ZERO)).
  assert (L : length DECAF_WNAF_TABLE = 32%nat) by reflexivity.
  split; [ apply znth_spec; rewrite L; lia | ].
  pose proof (chk_entries_ok _ _ _ 0 (walk_points_ok _ _ H1) H2 (Z.to_nat i) (Niels BIG_ZERO BIG_ZERO BIG_ZERO)) as K.
  rewrite L, Z.add_0_l, Z2Nat.id in K by lia. apply K. lia.
Qed.

(* the comb table *)
Definition comb_hints (j : nat) : list (bool * nat * zpt) :=
  nth j [comb_hints0; comb_hints1; comb_hints2; comb_hints3; comb_hints4] [].
Definition comb_start (j : nat) : nat := 18 * (4 + 5 * j).
Definition comb_walk (j : nat) : bool := walk_check (comb_start j) (comb_hints j).
Definition comb_entries (j : nat) : bool :=
  chk_entries (walk_points (comb_start j) (comb_hints j)) (cval (Z.of_nat j)) 0
    (firstn 16 (skipn (16 * j) comb_base)).
Lemma comb_walk_ok : forallb comb_walk (seq 0 5) = true.
Proof. vm_cast_no_check (eq_refl true). Qed.
Lemma comb_entries_ok : forallb comb_entries (seq 0 5) = true.
Proof. vm_cast_no_check (eq_refl true). Qed.
Lemma comb_ok : comb_table_ok.
Proof.
  intros j t Hj Ht. assert (I : In (Z.to_nat j) (seq 0 5)) by (apply in_seq; lia).
  pose proof (proj1 (forallb_forall _ _) comb_walk_ok _ I) as H1.
  pose proof (proj1 (forallb_forall _ _) comb_entries_ok _ I) as H2.
  set (d := Niels BIG_ZERO BIG_ZERO BIG_ZERO).
  exists (nth (Z.to_nat (16 * j + t)) comb_base d).
  assert (L : length comb_base = 80%nat) by reflexivity.
  split; [ apply znth_spec; rewrite L; lia | ].
  assert (L2 : length (firstn 16 (skipn (16 * Z.to_nat j) comb_base)) = 16%nat).
  { rewrite firstn_length, skipn_length, L. lia. }
  pose proof (chk_entries_ok _ _ _ 0 (walk_points_ok _ _ H1) H2 (Z.to_nat t) d) as K.
  rewrite L2, Z.add_0_l, !Z2Nat.id in K by lia. specialize (K ltac:(lia)).
  assert (E : nth (Z.to_nat (16 * j + t)) comb_base d = nth (Z.to_nat t) (firstn 16 (skipn (16 * Z.to_nat j) comb_base)) d).
  { replace (Z.to_nat (16 * j + t)) with (16 * Z.to_nat j + Z.to_nat t)%nat by lia.
    rewrite <- (firstn_skipn (16 * Z.to_nat j) comb_base) at 1.
    rewrite app_nth2 by (rewrite firstn_length, L; lia).
    rewrite firstn_length, L, Nat.min_l by lia.
    replace (16 * Z.to_nat j + Z.to_nat t - 16 * Z.to_nat j)%nat with (Z.to_nat t) by lia.
    rewrite <- (firstn_skipn 16 (skipn (16 * Z.to_nat j) comb_base)) at 1.
    rewrite app_nth1 by (rewrite L2; lia). reflexivity. }
  rewrite E. exact K.
Qed.

(* q B = 0 *)
Definition order_point : zpt := Eval vm_compute in snd (last (map (fun e => (tt, snd e)) order_hints) (tt, (0, 0))).
Definition zeqp (P Q : zpt) : bool := eqp (fst P) (fst Q) && eqp (snd P) (snd Q).
Lemma zeqp_ok : forall P Q, zeqp P Q = true -> zF P = zF Q.
Proof.
  intros (x, y) (x', y') H. apply andb_prop in H. destruct H as (A & B).
  apply eqp_ok in A. apply eqp_ok in B. unfold zF. rewrite A, B. reflexivity.
Qed.
Lemma order_walk_ok : walk_check order_start order_hints = true.
Proof. vm_cast_no_check (eq_refl true). Qed.
Lemma order_find_ok : zfind (2 ^ 446 - q448) (walk_points order_start order_hints) = Some order_point.
Proof. vm_cast_no_check (eq_refl (Some order_point)). Qed.
Lemma order_eq_ok : zeqp order_point (nth 446 zall (0, 0)) = true.
Proof. vm_cast_no_check (eq_refl true). Qed.
Lemma emul_diff : forall a b P, on_curve P -> emul a P = emul b P -> emul (a - b) P = ezero.
Proof.
  intros a b P HP H. unfold Z.sub. rewrite emul_add, emul_opp, H by exact HP. apply eadd_neg, emul_on, HP.
Qed.
Lemma order_ok : emul q448 ebase = ezero.
Proof.
  pose proof (zfind_ok ebase _ _ _ (walk_points_ok _ _ order_walk_ok) order_find_ok) as K.
  assert (L : (446 < length zall)%nat) by (apply Nat.ltb_lt; reflexivity).
  pose proof (zall_ok 446 (0, 0) L) as K2.
  rewrite (zeqp_ok _ _ order_eq_ok), K2 in K. clear K2.
  change (Z.of_nat 446) with 446 in K.
  apply emul_diff in K; [ | exact ebase_on ].
  assert (E : 2 ^ 446 - (2 ^ 446 - q448) = q448) by ring.
  exact (eq_trans (eq_sym (f_equal (fun n => emul n ebase) E)) K).
Qed.
