(* extended_point.rs: the point operations as operations of the curve group.
   A point of the crate stands for a point Q of edwards448: its affine coordinates are those of
   phi Q, up to a common sign (i.e. up to adding the point (0,-1) of order 2). *)
From Coq Require Import ZArith List Bool Lia Ring Field.
From Verif Require Import SpecField SpecBytes SpecCurve Base Arith Constants32 BigNumber Niels ExtendedPoint.
From Verif Require Import LimbKara LimbMul LimbOps LimbOps2 LimbSer Field FieldOps Edwards Isogeny.
Import ListNotations.
Open Scope Z_scope.
Open Scope F_scope.

Definition rep3 (X Y Z : Fp) (Q : ept) : Prop :=
  on_curve Q /\ Z <> 0 /\
  exists e, e * e = 1 /\ X = e * fst (phi Q) * Z /\ Y = e * snd (phi Q) * Z.
Definition tight_point (p : point) : Prop := tight (px p) /\ tight (py p) /\ tight (pz p) /\ tight (ExtendedPoint.pt p).
(* coordinates x, y, z only *)
Definition is3 (p : point) (Q : ept) : Prop :=
  tight_point p /\ rep3 (F (px p)) (F (py p)) (F (pz p)) Q.
(* all four coordinates *)
Definition isP (p : point) (Q : ept) : Prop :=
  is3 p Q /\ F (ExtendedPoint.pt p) * F (pz p) = F (px p) * F (py p).

(* cached points: 2a = e(b-a)z, 2b = e(b+a)z, c = d' a b z *)
Definition repN (A B C Z : Fp) (Q : ept) : Prop :=
  on_curve Q /\ Z <> 0 /\
  exists e, e * e = 1 /\ mkF 2 * A = e * (snd (phi Q) - fst (phi Q)) * Z /\
    mkF 2 * B = e * (snd (phi Q) + fst (phi Q)) * Z /\
    C = twd * fst (phi Q) * snd (phi Q) * Z.
Definition tight_niels (n : niels) : Prop := tight (na n) /\ tight (nb n) /\ tight (nc n).
Definition isN (n : niels) (Q : ept) : Prop :=
  tight_niels n /\ repN (F (na n)) (F (nb n)) (F (nc n)) 1 Q.
Definition isPN (m : pniels) (Q : ept) : Prop :=
  tight_niels (pn m) /\ tight (pnz m) /\ repN (F (na (pn m))) (F (nb (pn m))) (F (nc (pn m))) (F (pnz m)) Q.

(* what an operation returns: is3 always, isP when the t coordinate was asked for *)
Definition isB (before : bool) (p : point) (Q : ept) : Prop := is3 p Q /\ (before = false -> isP p Q).
Lemma isB_false : forall p Q, isB false p Q -> isP p Q.
Proof. intros p Q (_ & H). auto. Qed.

Lemma rep_T : forall X Y Z T Q, rep3 X Y Z Q -> T * Z = X * Y -> T = fst (phi Q) * snd (phi Q) * Z.
Proof.
  intros X Y Z T Q (HQ & HZ & e & He & HX & HY) HT.
  apply (fmul_cancel Z); [ exact HZ | ].
  transitivity (X * Y); [ rewrite <- HT; ring | ].
  rewrite HX, HY. transitivity ((e * e) * (fst (phi Q) * snd (phi Q) * (Z * Z))); [ ring | rewrite He; ring ].
Qed.

(* addition, at field level *)
Lemma add_core : forall X Y Z T A B C Zn P Q,
  rep3 X Y Z P -> T * Z = X * Y -> repN A B C Zn Q ->
  let a := A * (Y - X) in let y := B * (X + Y) in let x := C * T in
  let c := a + y in let b := y - a in let z := Z * Zn in let y := z - x in let a := x + z in
  rep3 (y * b) (a * c) (a * y) (eadd P Q) /\ (b * c) * (a * y) = (y * b) * (a * c).
Proof.
  intros X Y Z T A B C Zn P Q HP HT HN. pose proof (rep_T _ _ _ _ _ HP HT) as ET.
  destruct HP as (P1 & NZ & e1 & E1 & HX & HY).
  destruct HN as (Q1 & NZn & e2 & E2 & HA & HB & HC).
  pose proof (phi_hom P Q P1 Q1) as K. pose proof (eadd_on P Q P1 Q1) as HS. cbv zeta.
  unfold rep3.
  destruct (phi P) as (a1, b1). destruct (phi Q) as (a2, b2). destruct (phi (eadd P Q)) as (a3, b3).
  cbn [fst snd] in *. cbv zeta in K. destruct K as (K1 & K2 & K3 & K4).
  set (eps := twd * (a1 * a2 * (b1 * b2))) in *.
  assert (EX : C * T = eps * (Z * Zn)) by (rewrite HC, ET; unfold eps; ring).
  assert (Ec : A * (Y - X) + B * (X + Y) = e1 * e2 * (b3 * (1 - eps)) * (Z * Zn)).
  { apply (fmul_cancel (mkF 2)); [ exact two_nz | ].
    transitivity (mkF 2 * A * (Y - X) + mkF 2 * B * (X + Y)); [ ring | ].
    rewrite HA, HB, HX, HY, K4. ring. }
  assert (Eb : B * (X + Y) - A * (Y - X) = e1 * e2 * (a3 * (1 + eps)) * (Z * Zn)).
  { apply (fmul_cancel (mkF 2)); [ exact two_nz | ].
    transitivity (mkF 2 * B * (X + Y) - mkF 2 * A * (Y - X)); [ ring | ].
    rewrite HA, HB, HX, HY, K3. ring. }
  rewrite Ec, Eb, EX. clearbody eps. split; [ | ring ].
  split; [ exact HS | ]. split.
  - replace (eps * (Z * Zn) + Z * Zn) with ((1 + eps) * (Z * Zn)) by ring.
    replace (Z * Zn - eps * (Z * Zn)) with ((1 - eps) * (Z * Zn)) by ring.
    repeat apply fmul_nz; assumption.
  - exists (e1 * e2). split; [ transitivity (e1 * e1 * (e2 * e2)); [ ring | rewrite E1, E2; ring ] | ].
    split; ring.
Qed.
Lemma repN_neg : forall A B C Z Q, repN A B C Z Q -> repN B A (- C) Z (eneg Q).
Proof.
  intros A B C Z Q (Q1 & NZ & e & E & HA & HB & HC).
  unfold repN. rewrite (phi_neg Q Q1). destruct (phi Q) as (a, b). cbn [fst snd] in *.
  split; [ apply eneg_on; exact Q1 | ]. split; [ exact NZ | ]. exists e. split; [ exact E | ].
  split; [ rewrite HB; ring | ]. split; [ rewrite HA; ring | rewrite HC; ring ].
Qed.
Lemma double_core : forall X Y Z Q, rep3 X Y Z Q ->
  let d := X * X + Y * Y in let b := (X + Y) * (X + Y) - d in let t := Y * Y - X * X in
  let a := Z * Z + Z * Z - t in
  rep3 (a * b) (t * d) (t * a) (eadd Q Q) /\ (b * d) * (t * a) = (a * b) * (t * d).
Proof.
  intros X Y Z Q (Q1 & NZ & e & E & HX & HY). cbv zeta. split; [ | ring ].
  pose proof (phi_hom Q Q Q1 Q1) as K. pose proof (phi_curve Q Q1) as C. pose proof (eadd_on Q Q Q1 Q1) as HS.
  unfold rep3.
  destruct (phi Q) as (a1, b1). destruct (phi (eadd Q Q)) as (a3, b3). cbn [fst snd] in *. cbv zeta in K.
  destruct K as (K1 & K2 & K3 & K4).
  set (eps := twd * (a1 * a1 * (b1 * b1))) in *.
  assert (Et : Y * Y - X * X = (1 + eps) * (Z * Z)).
  { transitivity (e * e * (b1 * b1 - a1 * a1) * (Z * Z)); [ rewrite HX, HY; ring | rewrite C, E; unfold eps; ring ]. }
  assert (Ed : X * X + Y * Y = b3 * (1 - eps) * (Z * Z)).
  { rewrite K4. transitivity (e * e * (b1 * b1 + a1 * a1) * (Z * Z)); [ rewrite HX, HY; ring | rewrite E; ring ]. }
  assert (Eb : (X + Y) * (X + Y) - (X * X + Y * Y) = a3 * (1 + eps) * (Z * Z)).
  { rewrite K3. transitivity (e * e * (a1 * b1 + a1 * b1) * (Z * Z)); [ rewrite HX, HY; ring | rewrite E; ring ]. }
  rewrite Eb, Et, Ed. clearbody eps. split; [ exact HS | ]. split.
  - replace (Z * Z + Z * Z - (1 + eps) * (Z * Z)) with ((1 - eps) * (Z * Z)) by ring.
    repeat apply fmul_nz; assumption.
  - exists 1. split; [ ring | ]. split; ring.
Qed.

(* the functions *)
Local Notation t2l := tight_loose.
Ltac do_sub Ha Hb r E T V :=
  match goal with |- context [sub ?a ?b] =>
    destruct (sub_F a b Ha Hb) as (r & E & T & V); rewrite E, bind_Some; cbv beta; clear E
  end.
Ltac bool_t before := destruct before; cbn [negb].

Lemma isB_intro : forall before X Y Z T T' Q, tight X -> tight Y -> tight Z -> tight T -> tight T' ->
  rep3 (F X) (F Y) (F Z) Q -> F T * F Z = F X * F Y ->
  isB before (MkPoint X Y Z (if negb before then T else T')) Q.
Proof.
  intros before X Y Z T T' Q HX HY HZ HT HT' HR HE. unfold isB, isP, is3, tight_point.
  cbn [px py pz ExtendedPoint.pt]. destruct before; cbn [negb]; split; try discriminate; tauto.
Qed.

Lemma add_niels_gen : forall p np before Z Zn P Q,
  tight_point p -> tight_niels np -> rep3 (F (px p)) (F (py p)) Z P ->
  F (ExtendedPoint.pt p) * Z = F (px p) * F (py p) -> F (pz p) = Z * Zn ->
  repN (F (na np)) (F (nb np)) (F (nc np)) Zn Q ->
  exists r, add_niels_to_extended p np before = Some r /\ isB before r (eadd P Q).
Proof.
  intros p np before Z Zn P Q (Tx & Ty & Tz & Tt) (Ta & Tb & Tc) HP HT HZ HN.
  pose proof (add_core _ _ _ _ _ _ _ _ _ _ HP HT HN) as K. cbv zeta in K. rewrite <- HZ in K.
  unfold add_niels_to_extended. cbv zeta.
  do_sub (t2l _ Ty) Tx b1 E1 T1 V1.
  destruct (mul_F (na np) b1 (t2l _ Ta) (t2l _ T1)) as (A1 & A2).
  destruct (add_raw_F (px p) (py p) Tx Ty) as (B1 & B2).
  destruct (mul_F (nb np) (add_raw (px p) (py p)) (t2l _ Tb) B1) as (C1 & C2).
  destruct (mul_F (nc np) (ExtendedPoint.pt p) (t2l _ Tc) (t2l _ Tt)) as (D1 & D2).
  set (a := mul (na np) b1) in *. set (y := mul (nb np) (add_raw (px p) (py p))) in *.
  set (x := mul (nc np) (ExtendedPoint.pt p)) in *.
  destruct (add_raw_F a y A1 C1) as (G1 & G2).
  do_sub (t2l _ C1) A1 b2 E2 T2 V2.
  do_sub (t2l _ Tz) D1 y2 E3 T3 V3.
  destruct (add_raw_F x (pz p) D1 Tz) as (I1 & I2).
  destruct (mul_F (add_raw x (pz p)) y2 I1 (t2l _ T3)) as (J1 & J2).
  destruct (mul_F y2 b2 (t2l _ T3) (t2l _ T2)) as (K1 & K2).
  destruct (mul_F (add_raw x (pz p)) (add_raw a y) I1 G1) as (L1 & L2).
  destruct (mul_F b2 (add_raw a y) (t2l _ T2) G1) as (M1 & M2).
  eexists. split; [ reflexivity | ].
  rewrite V1 in A2. rewrite B2 in C2. rewrite A2, C2 in G2, V2. rewrite D2 in V3, I2.
  rewrite V3, I2 in J2. rewrite V3, V2 in K2. rewrite I2, G2 in L2. rewrite V2, G2 in M2.
  apply isB_intro; auto; [ rewrite K2, L2, J2; exact (proj1 K) | rewrite M2, K2, L2, J2; exact (proj2 K) ].
Qed.
Lemma add_niels_ok : forall p np before P Q, isP p P -> isN np Q ->
  exists r, add_niels_to_extended p np before = Some r /\ isB before r (eadd P Q).
Proof.
  intros p np before P Q ((Hp & HR) & HT) (Hn & HN).
  apply (add_niels_gen p np before (F (pz p)) 1 P Q); auto. ring.
Qed.
Lemma add_pniels_ok : forall p m before P Q, isP p P -> isPN m Q ->
  exists r, add_projected_niels_to_extended p m before = Some r /\ isB before r (eadd P Q).
Proof.
  intros p m before P Q (((Tx & Ty & Tz & Tt) & HR) & HT) (Hn & Hz & HN).
  unfold add_projected_niels_to_extended. cbv zeta.
  destruct (mul_F (pz p) (pnz m) (t2l _ Tz) (t2l _ Hz)) as (A1 & A2).
  apply (add_niels_gen _ (pn m) before (F (pz p)) (F (pnz m)) P Q); cbn [px py pz ExtendedPoint.pt]; auto.
  unfold tight_point. cbn [px py pz ExtendedPoint.pt]. tauto.
Qed.

(* subtraction: the same with the negated cached point *)
Lemma sub_core : forall X Y Z T A B C Zn P Q,
  rep3 X Y Z P -> T * Z = X * Y -> repN A B C Zn Q ->
  let a := B * (Y - X) in let y := A * (X + Y) in let x := C * T in
  let c := a + y in let b := y - a in let z := Z * Zn in let y := z + x in let a := z - x in
  rep3 (y * b) (a * c) (a * y) (eadd P (eneg Q)) /\ (b * c) * (a * y) = (y * b) * (a * c).
Proof.
  intros X Y Z T A B C Zn P Q HP HT HN.
  pose proof (add_core _ _ _ _ _ _ _ _ _ _ HP HT (repN_neg _ _ _ _ _ HN)) as K. cbv zeta in *.
  replace (Z * Zn - - C * T) with (Z * Zn + C * T) in K by ring.
  replace (- C * T + Z * Zn) with (Z * Zn - C * T) in K by ring. exact K.
Qed.
Lemma sub_niels_gen : forall p np before Z Zn P Q,
  tight_point p -> tight_niels np -> rep3 (F (px p)) (F (py p)) Z P ->
  F (ExtendedPoint.pt p) * Z = F (px p) * F (py p) -> F (pz p) = Z * Zn ->
  repN (F (na np)) (F (nb np)) (F (nc np)) Zn Q ->
  exists r, sub_niels_from_extended_point p np before = Some r /\ isB before r (eadd P (eneg Q)).
Proof.
  intros p np before Z Zn P Q (Tx & Ty & Tz & Tt) (Ta & Tb & Tc) HP HT HZ HN.
  pose proof (sub_core _ _ _ _ _ _ _ _ _ _ HP HT HN) as K. cbv zeta in K. rewrite <- HZ in K.
  unfold sub_niels_from_extended_point. cbv zeta.
  do_sub (t2l _ Ty) Tx b1 E1 T1 V1.
  destruct (mul_F (nb np) b1 (t2l _ Tb) (t2l _ T1)) as (A1 & A2).
  destruct (add_raw_F (px p) (py p) Tx Ty) as (B1 & B2).
  destruct (mul_F (na np) (add_raw (px p) (py p)) (t2l _ Ta) B1) as (C1 & C2).
  destruct (mul_F (nc np) (ExtendedPoint.pt p) (t2l _ Tc) (t2l _ Tt)) as (D1 & D2).
  set (a := mul (nb np) b1) in *. set (y := mul (na np) (add_raw (px p) (py p))) in *.
  set (x := mul (nc np) (ExtendedPoint.pt p)) in *.
  destruct (add_raw_F a y A1 C1) as (G1 & G2).
  do_sub (t2l _ C1) A1 b2 E2 T2 V2.
  destruct (add_raw_F (pz p) x Tz D1) as (I1 & I2).
  do_sub (t2l _ Tz) D1 a2 E3 T3 V3.
  destruct (mul_F a2 (add_raw (pz p) x) (t2l _ T3) I1) as (J1 & J2).
  destruct (mul_F (add_raw (pz p) x) b2 I1 (t2l _ T2)) as (K1 & K2).
  destruct (mul_F a2 (add_raw a y) (t2l _ T3) G1) as (L1 & L2).
  destruct (mul_F b2 (add_raw a y) (t2l _ T2) G1) as (M1 & M2).
  eexists. split; [ reflexivity | ].
  rewrite V1 in A2. rewrite B2 in C2. rewrite A2, C2 in G2, V2. rewrite D2 in V3, I2.
  rewrite V3, I2 in J2. rewrite I2, V2 in K2. rewrite V3, G2 in L2. rewrite V2, G2 in M2.
  apply isB_intro; auto; [ rewrite K2, L2, J2; exact (proj1 K) | rewrite M2, K2, L2, J2; exact (proj2 K) ].
Qed.
Lemma sub_niels_ok : forall p np before P Q, isP p P -> isN np Q ->
  exists r, sub_niels_from_extended_point p np before = Some r /\ isB before r (eadd P (eneg Q)).
Proof.
  intros p np before P Q ((Hp & HR) & HT) (Hn & HN).
  apply (sub_niels_gen p np before (F (pz p)) 1 P Q); auto. ring.
Qed.
Lemma sub_pniels_ok : forall p m before P Q, isP p P -> isPN m Q ->
  exists r, sub_projected_niels_from_extended_point p m before = Some r /\ isB before r (eadd P (eneg Q)).
Proof.
  intros p m before P Q (((Tx & Ty & Tz & Tt) & HR) & HT) (Hn & Hz & HN).
  unfold sub_projected_niels_from_extended_point. cbv zeta.
  destruct (mul_F (pz p) (pnz m) (t2l _ Tz) (t2l _ Hz)) as (A1 & A2).
  apply (sub_niels_gen _ (pn m) before (F (pz p)) (F (pnz m)) P Q); cbn [px py pz ExtendedPoint.pt]; auto.
  unfold tight_point. cbn [px py pz ExtendedPoint.pt]. tauto.
Qed.

Lemma double_ok : forall p before Q, is3 p Q ->
  exists r, double_internal p before = Some r /\ isB before r (eadd Q Q).
Proof.
  intros p before Q ((Tx & Ty & Tz & Tt) & HR).
  pose proof (double_core _ _ _ _ HR) as K. cbv zeta in K.
  unfold double_internal. cbv zeta.
  destruct (square_F (px p) (t2l _ Tx)) as (A1 & A2). destruct (square_F (py p) (t2l _ Ty)) as (B1 & B2).
  set (c := square (px p)) in *. set (a := square (py p)) in *.
  destruct (add_raw_F c a A1 B1) as (C1 & C2).
  destruct (add_raw_F (px p) (py p) Tx Ty) as (D1 & D2).
  destruct (square_F (add_raw (px p) (py p)) D1) as (E1 & E2).
  set (d := add_raw c a) in *. set (b0 := square (add_raw (px p) (py p))) in *.
  destruct (sub_x_bias_F b0 d 3 (t2l _ E1) C1 ltac:(lia)) as (b & Eb & Tb & Vb).
  rewrite Eb, bind_Some. cbv beta. clear Eb.
  do_sub (t2l _ B1) A1 t Et T1 V1.
  destruct (square_F (pz p) (t2l _ Tz)) as (G1 & G2).
  destruct (add_raw_F (square (pz p)) (square (pz p)) G1 G1) as (I1 & I2).
  set (z := add_raw (square (pz p)) (square (pz p))) in *.
  destruct (sub_x_bias_F z t 4 I1 (t2l _ T1) ltac:(lia)) as (a' & Ea & Ta & Va).
  rewrite Ea, bind_Some. cbv beta. clear Ea.
  destruct (mul_F a' b (t2l _ Ta) (t2l _ Tb)) as (J1 & J2).
  destruct (mul_F t a' (t2l _ T1) (t2l _ Ta)) as (K1 & K2).
  destruct (mul_F t d (t2l _ T1) C1) as (L1 & L2).
  destruct (mul_F b d (t2l _ Tb) C1) as (M1 & M2).
  eexists. split; [ reflexivity | ].
  rewrite A2, B2 in C2, V1. rewrite D2 in E2. rewrite E2, C2 in Vb. rewrite G2 in I2. rewrite I2, V1 in Va.
  rewrite Va, Vb in J2. rewrite V1, Va in K2. rewrite V1, C2 in L2. rewrite Vb, C2 in M2.
  apply isB_intro; auto; [ rewrite J2, L2, K2; exact (proj1 K) | rewrite M2, J2, L2, K2; exact (proj2 K) ].
Qed.

Lemma to_pniels_ok : forall p Q, isP p Q -> exists m, to_projected_niels p = Some m /\ isPN m Q.
Proof.
  intros p Q (((Tx & Ty & Tz & Tt) & HR) & HT). unfold to_projected_niels. cbv zeta.
  pose proof (rep_T _ _ _ _ _ HR HT) as ET. destruct HR as (HQ & NZ & e & He & HX & HY).
  do_sub (t2l _ Ty) Tx a Ea Ta Va.
  destruct (mul_signed_F (ExtendedPoint.pt p) (2 * EDWARDS_D - 2) (t2l _ Tt) ltac:(unfold EDWARDS_D; lia)) as (c & Ec & Tc & Vc).
  rewrite Ec, bind_Some. cbv beta. clear Ec.
  destruct (add_F (px p) (py p) (t2l _ Tx) (t2l _ Ty)) as (B1 & B2).
  destruct (add_F (pz p) (pz p) (t2l _ Tz) (t2l _ Tz)) as (C1 & C2).
  eexists. split; [ reflexivity | ]. unfold isPN, tight_niels. cbn [pn pnz na nb nc].
  split; [ tauto | ]. split; [ exact C1 | ].
  rewrite Va, B2, Vc, C2, ET. unfold repN. rewrite HX, HY.
  split; [ exact HQ | ]. split.
  - replace (F (pz p) + F (pz p)) with (mkF 2 * F (pz p)) by ring. apply fmul_nz; [ exact two_nz | exact NZ ].
  - exists e. split; [ exact He | ].
    assert (EC : mkF (2 * EDWARDS_D - 2) = mkF 2 * twd).
    { rewrite twd_val. transitivity (mkF (2 * (-39082))); [ reflexivity | apply mkF_mul ]. }
    rewrite EC. split; [ ring | ]. split; ring.
Qed.
Lemma pniels_to_extended_ok : forall m Q, isPN m Q -> exists r, pniels_to_extended m = Some r /\ isP r Q.
Proof.
  intros m Q ((Ta & Tb & Tc) & Tz & HQ & NZ & e & He & HA & HB & HC). unfold pniels_to_extended. cbv zeta.
  do_sub (t2l _ Tb) Ta qy Ey Ty Vy.
  destruct (add_F (nb (pn m)) (na (pn m)) (t2l _ Tb) (t2l _ Ta)) as (B1 & B2).
  set (eu := add (nb (pn m)) (na (pn m))) in *.
  destruct (mul_F qy eu (t2l _ Ty) (t2l _ B1)) as (C1 & C2).
  destruct (mul_F (pnz m) qy (t2l _ Tz) (t2l _ Ty)) as (D1 & D2).
  destruct (mul_F (pnz m) eu (t2l _ Tz) (t2l _ B1)) as (E1 & E2).
  destruct (square_F (pnz m) (t2l _ Tz)) as (G1 & G2).
  eexists. split; [ reflexivity | ]. unfold isP, is3, tight_point. cbn [px py pz ExtendedPoint.pt].
  assert (E3 : F (nb (pn m)) - F (na (pn m)) = e * fst (phi Q) * F (pnz m)).
  { apply (fmul_cancel (mkF 2)); [ exact two_nz | ].
    transitivity (mkF 2 * F (nb (pn m)) - mkF 2 * F (na (pn m))); [ ring | rewrite HA, HB; ring ]. }
  assert (E4 : F (nb (pn m)) + F (na (pn m)) = e * snd (phi Q) * F (pnz m)).
  { apply (fmul_cancel (mkF 2)); [ exact two_nz | ].
    transitivity (mkF 2 * F (nb (pn m)) + mkF 2 * F (na (pn m))); [ ring | rewrite HA, HB; ring ]. }
  rewrite C2, D2, E2, G2, Vy, B2, E3, E4.
  split; [ split; [ auto | ] | ring ].
  split; [ exact HQ | ]. split; [ apply fmul_nz; exact NZ | ].
  exists e. split; [ exact He | ]. split; ring.
Qed.
Lemma niels_to_extended_ok : forall n Q, isN n Q -> exists r, niels_to_extended n = Some r /\ isP r Q.
Proof.
  intros m Q ((Ta & Tb & Tc) & HQ & NZ & e & He & HA & HB & HC). unfold niels_to_extended. cbv zeta.
  do_sub (t2l _ Tb) Ta x Ex Tx Vx.
  destruct (add_F (nb m) (na m) (t2l _ Tb) (t2l _ Ta)) as (B1 & B2).
  set (y := add (nb m) (na m)) in *.
  destruct (mul_F y x (t2l _ B1) (t2l _ Tx)) as (C1 & C2).
  eexists. split; [ reflexivity | ]. unfold isP, is3, tight_point. cbn [px py pz ExtendedPoint.pt].
  assert (E3 : F (nb m) - F (na m) = e * fst (phi Q) * 1).
  { apply (fmul_cancel (mkF 2)); [ exact two_nz | ].
    transitivity (mkF 2 * F (nb m) - mkF 2 * F (na m)); [ ring | rewrite HA, HB; ring ]. }
  assert (E4 : F (nb m) + F (na m) = e * snd (phi Q) * 1).
  { apply (fmul_cancel (mkF 2)); [ exact two_nz | ].
    transitivity (mkF 2 * F (nb m) + mkF 2 * F (na m)); [ ring | rewrite HA, HB; ring ]. }
  rewrite C2, Vx, B2, E3, E4, F_one.
  split; [ split; [ auto using one_tight | ] | ring ].
  split; [ exact HQ | ]. split; [ exact NZ | ].
  exists e. split; [ exact He | ]. split; ring.
Qed.
Lemma niels_negate_gen : forall n b Z Q, tight_niels n -> repN (F (na n)) (F (nb n)) (F (nc n)) Z Q ->
  exists r, niels_conditional_negate n (mask b) = Some r /\ tight_niels r /\
    repN (F (na r)) (F (nb r)) (F (nc r)) Z (if b then eneg Q else Q).
Proof.
  intros n b Z Q (Ta & Tb & Tc) HN. unfold niels_conditional_negate.
  rewrite conditional_swap_ok by (apply tight_max; assumption).
  destruct (conditional_negate_F (nc n) b Tc) as (c & Ec & T1 & V1).
  assert (G : forall x y : bn, (if b then (y, x) else (x, y)) = (if b then y else x, if b then x else y))
    by (destruct b; reflexivity).
  rewrite G, Ec, bind_Some. cbv beta. eexists. split; [ reflexivity | ].
  unfold tight_niels. cbn [na nb nc]. rewrite V1. destruct b.
  - split; [ tauto | ]. apply repN_neg. exact HN.
  - split; [ tauto | ]. exact HN.
Qed.
Lemma niels_negate_ok : forall n b Q, isN n Q ->
  exists r, niels_conditional_negate n (mask b) = Some r /\ isN r (if b then eneg Q else Q).
Proof.
  intros n b Q (Hn & HN). destruct (niels_negate_gen n b 1 Q Hn HN) as (r & H1 & H2 & H3).
  exists r. split; [ exact H1 | ]. split; assumption.
Qed.
Lemma pniels_negate_ok : forall m b Q, isPN m Q ->
  exists r, niels_conditional_negate (pn m) (mask b) = Some r /\ isPN (PNiels r (pnz m)) (if b then eneg Q else Q).
Proof.
  intros m b Q (Hn & Hz & HN). destruct (niels_negate_gen (pn m) b _ Q Hn HN) as (r & H1 & H2 & H3).
  exists r. split; [ exact H1 | ]. unfold isPN. cbn [pn pnz]. tauto.
Qed.
Lemma identity_ok : isP identity_point ezero.
Proof.
  unfold isP, is3, tight_point, identity_point. cbn [px py pz ExtendedPoint.pt].
  pose proof one_tight. pose proof zero_tight. rewrite F_zero, F_one.
  split; [ split; [ auto | ] | ring ].
  split; [ exact ezero_on | ]. split; [ exact fone_nz | ].
  rewrite phi_zero. exists 1. cbn [fst snd]. split; [ ring | ]. split; ring.
Qed.

(* encoding: 4 Q as RFC 8032 encodes it *)
Lemma encode_point_ok : forall p Q, is3 p Q -> eddsa_like_encode p = Some (eencode (emul 4 Q)).
Proof.
  intros p Q ((Tx & Ty & Tz & Tt) & HQ & NZ & e & He & HX & HY).
  pose proof (psi_phi Q HQ) as K. destruct (phi Q) as (a, b). cbn [fst snd] in *. destruct K as (K1 & K2 & K3).
  unfold eddsa_like_encode. cbv zeta.
  destruct (square_F (px p) (t2l _ Tx)) as (A1 & A2). destruct (square_F (py p) (t2l _ Ty)) as (B1 & B2).
  set (x := square (px p)) in *. set (t := square (py p)) in *.
  destruct (add_F x t (t2l _ A1) (t2l _ B1)) as (C1 & C2). set (u := add x t) in *.
  destruct (add_F (py p) (px p) (t2l _ Ty) (t2l _ Tx)) as (D1 & D2).
  destruct (square_F (add (py p) (px p)) (t2l _ D1)) as (E1 & E2). set (y0 := square (add (py p) (px p))) in *.
  do_sub (t2l _ C1) E1 y Ey Ty' Vy.
  do_sub (t2l _ B1) A1 z Ez Tz' Vz.
  destruct (square_F (pz p) (t2l _ Tz)) as (G1 & G2).
  destruct (add_F (square (pz p)) (square (pz p)) (t2l _ G1) (t2l _ G1)) as (I1 & I2).
  do_sub (t2l _ I1) Tz' t' Et Tt' Vt.
  destruct (mul_F t' y (t2l _ Tt') (t2l _ Ty')) as (J1 & J2).
  destruct (mul_F z u (t2l _ Tz') (t2l _ C1)) as (L1 & L2).
  destruct (mul_F u t' (t2l _ C1) (t2l _ Tt')) as (M1 & M2).
  destruct (invert_F (mul u t') M1) as (zi & Ei & Ti & Vi). rewrite Ei, bind_Some. cbv beta.
  destruct (mul_F (mul t' y) zi (t2l _ J1) (t2l _ Ti)) as (N1 & N2).
  destruct (mul_F (mul z u) zi (t2l _ L1) (t2l _ Ti)) as (O1 & O2).
  rewrite (serialize_F _ O1), bind_Some. cbv beta. rewrite (low_bit_F _ N1), bind_Some. cbv beta.
  f_equal. unfold eencode. rewrite K3.
  rewrite A2, B2 in C2, Vz. rewrite D2 in E2. rewrite C2, E2 in Vy. rewrite G2 in I2. rewrite I2, Vz in Vt.
  assert (Fu : F u = (a * a + b * b) * (F (pz p) * F (pz p))).
  { rewrite C2, HX, HY. transitivity (e * e * (a * a + b * b) * (F (pz p) * F (pz p))); [ ring | rewrite He; ring ]. }
  assert (Ft : F t' = (mkF 2 - (b * b - a * a)) * (F (pz p) * F (pz p))).
  { rewrite Vt, HX, HY. transitivity ((mkF 2 - e * e * (b * b - a * a)) * (F (pz p) * F (pz p))); [ ring | rewrite He; ring ]. }
  assert (Fy : F y = - (mkF 2 * a * b) * (F (pz p) * F (pz p))).
  { rewrite Vy, HX, HY. transitivity (- (e * e * (mkF 2 * a * b)) * (F (pz p) * F (pz p))); [ ring | rewrite He; ring ]. }
  assert (Fz : F z = (b * b - a * a) * (F (pz p) * F (pz p))).
  { rewrite Vz, HX, HY. transitivity ((e * e) * (b * b - a * a) * (F (pz p) * F (pz p))); [ ring | rewrite He; ring ]. }
  assert (Fx' : F (mul (mul t' y) zi) = - (mkF 2 * a * b) / (a * a + b * b)).
  { rewrite N2, J2, Vi, M2, Fu, Ft, Fy.
    set (s := a * a + b * b) in *. set (w := mkF 2 - (b * b - a * a)) in *. set (zz := F (pz p)) in *.
    clearbody s w. rewrite fdiv_def. field. tauto. }
  assert (Fy' : F (mul (mul z u) zi) = (b * b - a * a) / (mkF 2 - (b * b - a * a))).
  { rewrite O2, L2, Vi, M2, Fu, Ft, Fz.
    set (s := a * a + b * b) in *. set (w := mkF 2 - (b * b - a * a)) in *. set (zz := F (pz p)) in *.
    clearbody s w. field. tauto. }
  rewrite Fx', Fy'. f_equal. f_equal.
  rewrite Zmod_odd. unfold mask. destruct (Z.odd _); reflexivity.
Qed.

(* comparison: ratios, tested in the low 420 bits only *)
Lemma mod_equal_ok : forall p1 p2, tight_point p1 -> tight_point p2 ->
  mod_equal p1 p2 = Some (low420 (F (py p1) * F (px p2) - F (px p1) * F (py p2))).
Proof.
  intros p1 p2 (X1 & Y1 & _) (X2 & Y2 & _). unfold mod_equal. cbv zeta.
  destruct (mul_F (py p1) (px p2) (t2l _ Y1) (t2l _ X2)) as (A1 & A2).
  destruct (mul_F (px p1) (py p2) (t2l _ X1) (t2l _ Y2)) as (B1 & B2).
  rewrite (decaf_equal_F _ _ (t2l _ A1) B1), A2, B2. cbn [bind]. f_equal. destruct (low420 _); reflexivity.
Qed.
(* the difference is 0 exactly when the points agree up to a point of order dividing 4 *)
Lemma cross_zero : forall X1 Y1 Z1 X2 Y2 Z2 P Q, rep3 X1 Y1 Z1 P -> rep3 X2 Y2 Z2 Q ->
  (Y1 * X2 - X1 * Y2 = 0 <-> emul 4 P = emul 4 Q).
Proof.
  intros X1 Y1 Z1 X2 Y2 Z2 P Q (HP & N1 & e1 & E1 & HX1 & HY1) (HQ & N2 & e2 & E2 & HX2 & HY2).
  rewrite <- (phi_ratio P Q HP HQ). destruct (phi P) as (a1, b1). destruct (phi Q) as (a2, b2). cbn [fst snd] in *.
  assert (K : Y1 * X2 - X1 * Y2 = (e1 * e2 * (Z1 * Z2)) * (a2 * b1 - a1 * b2)) by (rewrite HX1, HY1, HX2, HY2; ring).
  rewrite K. split; intro E.
  - apply fmul_zero in E. destruct E as [E|E].
    + exfalso. apply fone_nz.
      assert (e1 <> 0) by (intros ->; apply fone_nz; rewrite <- E1; ring).
      assert (e2 <> 0) by (intros ->; apply fone_nz; rewrite <- E2; ring).
      exfalso. revert E. repeat apply fmul_nz; assumption.
    + symmetry. apply (proj1 (fsub_zero _ _)). exact E.
  - rewrite E. ring.
Qed.
Lemma mod_equal_complete : forall p1 p2 P Q, is3 p1 P -> is3 p2 Q -> emul 4 P = emul 4 Q -> mod_equal p1 p2 = Some true.
Proof.
  intros p1 p2 P Q (T1 & R1) (T2 & R2) H. rewrite mod_equal_ok by assumption.
  rewrite (proj2 (cross_zero _ _ _ _ _ _ P Q R1 R2) H). rewrite low420_zero. reflexivity.
Qed.
