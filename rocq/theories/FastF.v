(* Arithmetic modulo p on Z by folding, for checks by computation. *)
From Coq Require Import ZArith List Bool Lia Ring Field.
From Verif Require Import SpecField SpecCurve Field Edwards Isogeny.
Import ListNotations.
Open Scope Z_scope.

Definition M448 : Z := Eval compute in 2 ^ 448 - 1.
Definition P448 : Z := Eval compute in 2 ^ 448 - 2 ^ 224 - 1.
Definition fold448 (n : Z) : Z :=
  Z.land n M448 + (let h := Z.shiftr n 448 in Z.shiftl h 224 + h).
Definition kparts : list (Z * Z) :=
  Eval compute in [(224, 2 ^ 224 - 1); (112, 2 ^ 112 - 1); (56, 2 ^ 56 - 1)].
Fixpoint kmul (l : list (Z * Z)) (x y : Z) : Z :=
  match l with
  | [] => x * y
  | (w, m) :: l =>
      let x1 := Z.shiftr x w in
      let y1 := Z.shiftr y w in
      let x0 := Z.land x m in
      let y0 := Z.land y m in
      let z2 := kmul l x1 y1 in
      let z0 := kmul l x0 y0 in
      let z1 := kmul l (x1 + x0) (y1 + y0) - (z2 + z0) in
      Z.shiftl (Z.shiftl z2 w + z1) w + z0
  end.
Definition mulp (x y : Z) : Z := fold448 (fold448 (kmul kparts x y)).
Definition sqrp (x : Z) : Z := fold448 (fold448 (Z.square x)).
Definition is0p (n : Z) : bool :=
  let r := fold448 (fold448 n) in (r =? 0) || (r =? P448).
Definition eqp (a b : Z) : bool := is0p (a - b).

Lemma fold_cong : forall n, mkF (fold448 n) = mkF n.
Proof.
  intro n. apply mkF_eq. unfold fold448.
  change M448 with (Z.ones 448). rewrite Z.land_ones, Z.shiftr_div_pow2, Z.shiftl_mul_pow2 by lia.
  pose proof (Z.div_mod n (2 ^ 448) ltac:(lia)) as D.
  set (h := n / 2 ^ 448) in *. set (r := n mod 2 ^ 448) in *. clearbody h r. subst n.
  replace (2 ^ 448 * h + r) with (r + (h * 2 ^ 224 + h) + h * p448) by (unfold p448; ring).
  symmetry. apply Z.mod_add. unfold p448. lia.
Qed.
Lemma kmul_gen : forall l, Forall (fun p => 0 <= fst p /\ snd p = Z.ones (fst p)) l -> forall x y, kmul l x y = x * y.
Proof.
  induction 1 as [|[w m] l (Hw & Hm) Hl IH]; intros x y; [ reflexivity | ].
  cbn [fst snd] in *. subst m. cbn [kmul]. cbv zeta. rewrite !IH.
  rewrite !Z.land_ones, !Z.shiftr_div_pow2, !Z.shiftl_mul_pow2 by lia.
  assert (N : 2 ^ w <> 0) by (apply Z.pow_nonzero; lia).
  pose proof (Z.div_mod x _ N) as Dx. pose proof (Z.div_mod y _ N) as Dy.
  set (x1 := x / 2 ^ w) in *. set (x0 := x mod 2 ^ w) in *. set (y1 := y / 2 ^ w) in *. set (y0 := y mod 2 ^ w) in *.
  clearbody x1 x0 y1 y0. rewrite Dx, Dy. ring.
Qed.
Lemma kmul_ok : forall x y, kmul kparts x y = x * y.
Proof. apply kmul_gen. repeat constructor; cbn [fst snd]; lia. Qed.
Lemma mulp_ok : forall x y, mkF (mulp x y) = fmul (mkF x) (mkF y).
Proof. intros. unfold mulp. rewrite !fold_cong, kmul_ok. apply mkF_mul. Qed.
Lemma sqrp_ok : forall x, mkF (sqrp x) = fmul (mkF x) (mkF x).
Proof. intros. unfold sqrp. rewrite !fold_cong, Z.square_spec. apply mkF_mul. Qed.
Lemma is0p_ok : forall n, is0p n = true -> mkF n = fzero.
Proof.
  intros n H. unfold is0p in H. cbv zeta in H. rewrite <- (fold_cong n), <- (fold_cong (fold448 n)).
  apply orb_prop in H. destruct H as [H|H]; apply Z.eqb_eq in H; rewrite H; change fzero with (mkF 0); apply mkF_eq; reflexivity.
Qed.
Lemma eqp_ok : forall a b, eqp a b = true -> mkF a = mkF b.
Proof.
  intros a b H. apply is0p_ok in H. rewrite mkF_sub in H. apply (proj1 (fsub_zero _ _)) in H. exact H.
Qed.

(* points as pairs of integers *)
Definition zpt : Type := (Z * Z)%type.
Definition zF (P : zpt) : ept := (mkF (fst P), mkF (snd P)).
(* (x', y') is the double of (x, y) *)
Definition chk_dbl (P R : zpt) : bool :=
  let (x, y) := P in let (x', y') := R in
  let xx := sqrp x in
  let yy := sqrp y in
  let s := xx + yy in
  let xy2 := sqrp (x + y) - s in
  eqp (mulp x' s) xy2 && eqp (mulp y' (2 + 2 * P448 - s)) (yy - xx).
(* (x3, y3) is the sum of two points *)
Definition chk_add (P Q R : zpt) : bool :=
  let (x1, y1) := P in let (x2, y2) := Q in let (x3, y3) := R in
  let u := mulp x1 x2 in
  let v := mulp y1 y2 in
  let w := mulp (x1 + y1) (x2 + y2) - u - v in
  let e := fold448 (fold448 (-39081 * mulp u v)) in
  eqp (mulp x3 (1 + e)) w && eqp (mulp y3 (P448 + P448 + 1 - e)) (v - u).

Open Scope F_scope.
Lemma P448_0 : mkF P448 = 0.
Proof. change fzero with (mkF 0). apply mkF_eq. reflexivity. Qed.
Lemma mkF_2P : mkF (2 * P448) = 0.
Proof. change fzero with (mkF 0). apply mkF_eq. reflexivity. Qed.
Lemma edouble_unique : forall x y x' y', on_curve (x, y) ->
  x' * (x * x + y * y) = mkF 2 * (x * y) -> y' * (mkF 2 - (x * x + y * y)) = y * y - x * x ->
  (x', y') = eadd (x, y) (x, y).
Proof.
  intros x y x' y' H E1 E2. rewrite edouble by exact H.
  assert (G1 : x' = mkF 2 * x * y / (x * x + y * y)).
  { apply (fmul_cancel (x * x + y * y)); [ apply phi_D_nz; exact H | ].
    transitivity (mkF 2 * (x * y)); [ rewrite <- E1; ring | field; apply phi_D_nz; exact H ]. }
  assert (G2 : y' = (y * y - x * x) / (mkF 2 - (x * x + y * y))).
  { apply (fmul_cancel (mkF 2 - (x * x + y * y))); [ apply phi_w_nz; exact H | ].
    transitivity (y * y - x * x); [ rewrite <- E2; ring | field; apply phi_w_nz; exact H ]. }
  rewrite <- G1, <- G2. reflexivity.
Qed.
Lemma eadd_unique : forall x1 y1 x2 y2 x3 y3, on_curve (x1, y1) -> on_curve (x2, y2) ->
  x3 * (1 + ecd * ((x1 * x2) * (y1 * y2))) = x1 * y2 + x2 * y1 ->
  y3 * (1 - ecd * ((x1 * x2) * (y1 * y2))) = y1 * y2 - x1 * x2 ->
  (x3, y3) = eadd (x1, y1) (x2, y2).
Proof.
  intros x1 y1 x2 y2 x3 y3 H1 H2 E1 E2. destruct (complete x1 y1 x2 y2 H1 H2) as (N1 & N2).
  assert (G1 : x3 = (x1 * y2 + x2 * y1) / (1 + ecd * ((x1 * x2) * (y1 * y2)))).
  { set (e := 1 + ecd * ((x1 * x2) * (y1 * y2))) in *. clearbody e.
    rewrite <- E1. field. exact N1. }
  assert (G2 : y3 = (y1 * y2 - x1 * x2) / (1 - ecd * ((x1 * x2) * (y1 * y2)))).
  { set (e := 1 - ecd * ((x1 * x2) * (y1 * y2))) in *. clearbody e.
    rewrite <- E2. field. exact N2. }
  Transparent eadd. unfold eadd. rewrite <- G1, <- G2. reflexivity.
Qed.
Opaque eadd.
Strategy -100 [chk_dbl chk_add].
Lemma chk_dbl_F : forall x y x' y', chk_dbl (x, y) (x', y') = true ->
  mkF x' * (mkF x * mkF x + mkF y * mkF y) = mkF 2 * (mkF x * mkF y) /\
  mkF y' * (mkF 2 - (mkF x * mkF x + mkF y * mkF y)) = mkF y * mkF y - mkF x * mkF x.
Proof.
  intros x y x' y' H. cbv beta iota zeta delta [chk_dbl] in H.
  apply andb_prop in H. destruct H as (A & B). apply eqp_ok in A. apply eqp_ok in B.
  pose proof mkF_2P as E2. set (pp := (2 * P448)%Z) in *. clearbody pp.
  rewrite mulp_ok, !mkF_add, mkF_sub, !sqrp_ok, !mkF_add, !sqrp_ok in A.
  rewrite mulp_ok, !mkF_sub, !mkF_add, !sqrp_ok, E2 in B.
  split; [ rewrite A; ring | rewrite <- B; ring ].
Qed.
Lemma chk_dbl_ok : forall P R, on_curve (zF P) -> chk_dbl P R = true -> zF R = eadd (zF P) (zF P).
Proof.
  intros (x, y) (x', y') HP H. apply chk_dbl_F in H. destruct H as (A & B).
  apply edouble_unique; [ exact HP | exact A | exact B ].
Qed.
Lemma chk_add_F : forall x1 y1 x2 y2 x3 y3, chk_add (x1, y1) (x2, y2) (x3, y3) = true ->
  mkF x3 * (1 + ecd * ((mkF x1 * mkF x2) * (mkF y1 * mkF y2))) = mkF x1 * mkF y2 + mkF x2 * mkF y1 /\
  mkF y3 * (1 - ecd * ((mkF x1 * mkF x2) * (mkF y1 * mkF y2))) = mkF y1 * mkF y2 - mkF x1 * mkF x2.
Proof.
  intros x1 y1 x2 y2 x3 y3 H. cbv beta iota zeta delta [chk_add] in H.
  apply andb_prop in H. destruct H as (A & B). apply eqp_ok in A. apply eqp_ok in B.
  assert (Ed : ecd = mkF (-39081)) by reflexivity. rewrite Ed. clear Ed.
  pose proof P448_0 as E2. set (pp := P448) in *. clearbody pp.
  change 1 with (mkF 1).
  rewrite mulp_ok, mkF_add, !fold_cong, mkF_mul, !mkF_sub, !mulp_ok, !mkF_add in A.
  rewrite mulp_ok, mkF_sub, !fold_cong, mkF_mul, mkF_sub, !mulp_ok, !mkF_add, E2 in B.
  generalize dependent (mkF 1). intros o A B. generalize dependent (mkF (-39081)). intros dd A B.
  split; [ rewrite A; ring | rewrite <- B; ring ].
Qed.
Lemma chk_add_ok : forall P Q R, on_curve (zF P) -> on_curve (zF Q) -> chk_add P Q R = true -> zF R = eadd (zF P) (zF Q).
Proof.
  intros (x1, y1) (x2, y2) (x3, y3) HP HQ H. apply chk_add_F in H. destruct H as (A & B).
  apply eadd_unique; [ exact HP | exact HQ | exact A | exact B ].
Qed.
Definition zneg (P : zpt) : zpt := ((- fst P)%Z, snd P).
Lemma zneg_ok : forall P, zF (zneg P) = eneg (zF P).
Proof. intros (x, y). unfold zneg, zF. cbn [fst snd]. rewrite mkF_opp. reflexivity. Qed.

(* a list of successive doubles *)
Fixpoint chk_chain (P : zpt) (l : list zpt) : bool :=
  match l with
  | [] => true
  | R :: t => chk_dbl P R && chk_chain R t
  end.
Lemma chain_ok : forall l P n E, on_curve E -> zF P = emul n E -> chk_chain P l = true ->
  forall i d, (i < S (length l))%nat -> zF (nth i (P :: l) d) = emul (2 ^ Z.of_nat i * n) E.
Proof.
  induction l as [|R l IH]; intros P n E HE HP H i d Hi.
  - destruct i as [|i]; [ | cbn [length] in Hi; lia ]. cbn [nth]. rewrite HP. f_equal. change (2 ^ Z.of_nat 0)%Z with 1%Z. ring.
  - cbn [chk_chain] in H. apply andb_prop in H. destruct H as (H1 & H2).
    destruct i as [|i]; [ cbn [nth]; rewrite HP; f_equal; change (2 ^ Z.of_nat 0)%Z with 1%Z; ring | ].
    apply chk_dbl_ok in H1; [ | rewrite HP; apply emul_on; exact HE ].
    rewrite HP, <- emul_add in H1 by exact HE.
    change (nth (S i) (P :: R :: l) d) with (nth i (R :: l) d).
    rewrite (IH R _ E HE H1 H2 i d) by (cbn [length] in Hi; lia).
    f_equal. rewrite Nat2Z.inj_succ, Z.pow_succ_r by lia. ring.
Qed.
(* a walk: steps by +- the i-th point of the chain *)
Fixpoint chk_walk (all : list zpt) (P : zpt) (l : list (bool * nat * zpt)) : bool :=
  match l with
  | [] => true
  | ((s, i), R) :: t =>
      let Q := nth i all (0%Z, 1%Z) in
      (i <? length all)%nat && chk_add P (if s then Q else zneg Q) R && chk_walk all R t
  end.
Fixpoint walk (n : Z) (P : zpt) (l : list (bool * nat * zpt)) : list (Z * zpt) :=
  match l with
  | [] => [(n, P)]
  | ((s, i), R) :: t =>
      (n, P) :: walk (if s then n + 2 ^ Z.of_nat i else n - 2 ^ Z.of_nat i)%Z R t
  end.
Lemma walk_ok : forall all E, on_curve E -> (forall i d, (i < length all)%nat -> zF (nth i all d) = emul (2 ^ Z.of_nat i) E) ->
  forall l n P, zF P = emul n E -> chk_walk all P l = true ->
  Forall (fun e => zF (snd e) = emul (fst e) E) (walk n P l).
Proof.
  intros all E HE HA. induction l as [|((s, i), R) l IH]; intros n P HP H; cbn [walk].
  - constructor; [ exact HP | constructor ].
  - constructor; [ exact HP | ]. cbn [chk_walk] in H. cbv zeta in H.
    apply andb_prop in H. destruct H as (H & H2). apply andb_prop in H. destruct H as (H0 & H1).
    apply Nat.ltb_lt in H0. pose proof (HA i (0, 1)%Z H0) as HQ.
    apply IH; [ | exact H2 ].
    destruct s.
    + apply chk_add_ok in H1; [ | rewrite HP; apply emul_on; exact HE | rewrite HQ; apply emul_on; exact HE ].
      rewrite H1, HP, HQ, <- emul_add by exact HE. reflexivity.
    + apply chk_add_ok in H1; [ | rewrite HP; apply emul_on; exact HE | rewrite zneg_ok, HQ; apply eneg_on, emul_on; exact HE ].
      rewrite H1, HP, zneg_ok, HQ, <- emul_opp, <- emul_add by exact HE. reflexivity.
Qed.
Fixpoint zfind (n : Z) (l : list (Z * zpt)) : option zpt :=
  match l with
  | [] => None
  | (m, P) :: t => if (m =? n)%Z then Some P else zfind n t
  end.
Lemma zfind_ok : forall E n l P, Forall (fun e => zF (snd e) = emul (fst e) E) l -> zfind n l = Some P -> zF P = emul n E.
Proof.
  induction l as [|(m, R) l IH]; intros P H; [ discriminate | ]. inversion H as [|? ? H1 H2]; subst.
  cbn [zfind]. destruct (Z.eqb_spec m n) as [->|]; [ | apply IH; exact H2 ].
  intro K. injection K as <-. exact H1.
Qed.
