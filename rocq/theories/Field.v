(* Fp is a field; squares in Fp. *)
From Coq Require Import ZArith List Lia Bool Znumtheory Zpow_facts Eqdep_dec Ring Field.
From Verif Require Import SpecField NumTheory PrimeP.
Import ListNotations.
Open Scope Z_scope.

Lemma p448_pos : 0 < p448.
Proof. reflexivity. Qed.
Lemma p448_nz : p448 <> 0.
Proof. discriminate. Qed.

Lemma F_eq : forall x y : Fp, fval x = fval y -> x = y.
Proof.
  intros [x Hx] [y Hy]. unfold fval. cbn [proj1_sig]. intro E. subst y.
  f_equal. apply UIP_dec. decide equality.
Qed.
Lemma fval_mkF : forall z, fval (mkF z) = z mod p448.
Proof. reflexivity. Qed.
Lemma fval_mod : forall x, fval x mod p448 = fval x.
Proof. intros [x Hx]. unfold fval. cbn [proj1_sig]. apply Z.eqb_eq. exact Hx. Qed.
Lemma fval_range : forall x, 0 <= fval x < p448.
Proof. intro x. rewrite <- fval_mod. apply Z.mod_pos_bound. reflexivity. Qed.
Lemma mkF_fval : forall x, mkF (fval x) = x.
Proof. intro x. apply F_eq. rewrite fval_mkF. apply fval_mod. Qed.
Lemma mkF_eq : forall a b, mkF a = mkF b <-> a mod p448 = b mod p448.
Proof.
  intros a b. split; intro H.
  - apply (f_equal fval) in H. exact H.
  - apply F_eq. exact H.
Qed.
Lemma mkF_add : forall a b, mkF (a + b) = fadd (mkF a) (mkF b).
Proof. intros. apply F_eq. unfold fadd. rewrite !fval_mkF. apply Z.add_mod. discriminate. Qed.
Lemma mkF_sub : forall a b, mkF (a - b) = fsub (mkF a) (mkF b).
Proof. intros. apply F_eq. unfold fsub. rewrite !fval_mkF. apply Zminus_mod. Qed.
Lemma mkF_mul : forall a b, mkF (a * b) = fmul (mkF a) (mkF b).
Proof. intros. apply F_eq. unfold fmul. rewrite !fval_mkF. apply Z.mul_mod. discriminate. Qed.
Lemma mkF_opp : forall a, mkF (- a) = fopp (mkF a).
Proof.
  intros. apply F_eq. unfold fopp. rewrite !fval_mkF.
  rewrite <- (Z.sub_0_l a), <- (Z.sub_0_l (a mod p448)), Zminus_mod_idemp_r. reflexivity.
Qed.

Ltac fp_lift := repeat match goal with
  | x : Fp |- _ => rewrite <- (mkF_fval x); generalize (fval x); clear x; intro x end.

Lemma Fp_ring_theory : ring_theory fzero fone fadd fmul fsub fopp (@eq Fp).
Proof.
  constructor; intros; fp_lift; unfold fzero, fone;
    rewrite <- ?mkF_opp, <- ?mkF_mul, <- ?mkF_add, <- ?mkF_sub, <- ?mkF_opp, <- ?mkF_mul, <- ?mkF_add, <- ?mkF_sub; f_equal; ring.
Qed.
Lemma fpow_val : forall x e, fval (fpow x e) = fval x ^ Zpos e mod p448.
Proof.
  intros x e. induction e as [e IH|e IH|]; cbn [fpow].
  - unfold fmul. rewrite !fval_mkF, IH. rewrite Pos2Z.inj_xI.
    replace (2 * Zpos e + 1) with (Zpos e + Zpos e + 1) by lia.
    rewrite !Z.pow_add_r, Z.pow_1_r by lia.
    rewrite <- Z.mul_mod, Z.mul_mod_idemp_l by discriminate. reflexivity.
  - unfold fmul. rewrite fval_mkF, IH, Pos2Z.inj_xO.
    replace (2 * Zpos e) with (Zpos e + Zpos e) by lia.
    rewrite Z.pow_add_r by lia. rewrite <- Z.mul_mod by discriminate. reflexivity.
  - rewrite Z.pow_1_r. symmetry. apply fval_mod.
Qed.
Lemma fone_fzero : fone <> fzero.
Proof. intro H. apply (f_equal fval) in H. discriminate. Qed.
Lemma fval_zero : forall x, fval x = 0 <-> x = fzero.
Proof.
  intro x. split; intro H.
  - apply F_eq. exact H.
  - subst x. reflexivity.
Qed.
Lemma fval_ndiv : forall x, x <> fzero -> ~ (p448 | fval x).
Proof.
  intros x H D. apply H. apply F_eq. apply Z.mod_divide in D; [ | discriminate ].
  rewrite fval_mod in D. exact D.
Qed.
(* Fermat *)
Lemma fermat_p : forall x, x <> fzero -> fpow x (Z.to_pos (p448 - 1)) = fone.
Proof.
  intros x H. apply F_eq. rewrite fpow_val, Z2Pos.id by reflexivity.
  rewrite fermat_units; [ reflexivity | exact p448_prime | apply fval_ndiv; exact H ].
Qed.
Lemma fpow_add : forall x a b, fpow x (a + b) = fmul (fpow x a) (fpow x b).
Proof.
  intros x a b. apply F_eq. unfold fmul. rewrite fval_mkF, !fpow_val, Pos2Z.inj_add, Z.pow_add_r by lia.
  rewrite <- Z.mul_mod by discriminate. reflexivity.
Qed.
Lemma fpow_mul : forall x a b, fpow (fpow x a) b = fpow x (a * b).
Proof.
  intros x a b. apply F_eq. rewrite !fpow_val, Pos2Z.inj_mul, Z.pow_mul_r by lia.
  rewrite <- Zpower_mod by reflexivity. reflexivity.
Qed.
Lemma finv_l : forall x, x <> fzero -> fmul (finv x) x = fone.
Proof.
  intros x H. rewrite <- (fermat_p x H). unfold finv.
  change (fmul (fpow x (Z.to_pos (p448 - 2))) (fpow x 1) = fpow x (Z.to_pos (p448 - 1))).
  rewrite <- fpow_add. f_equal.
Qed.
Lemma Fp_field_theory : field_theory fzero fone fadd fmul fsub fopp fdiv finv (@eq Fp).
Proof.
  constructor.
  - exact Fp_ring_theory.
  - exact fone_fzero.
  - reflexivity.
  - exact finv_l.
Qed.
Lemma Fp_morph : ring_morph fzero fone fadd fmul fsub fopp (@eq Fp) 0 1 Z.add Z.mul Z.sub Z.opp Z.eqb mkF.
Proof.
  constructor; intros; auto using mkF_add, mkF_sub, mkF_mul, mkF_opp.
  apply Z.eqb_eq in H. congruence.
Qed.
Lemma fval_fzero : fval fzero = 0%Z. Proof. reflexivity. Qed.
Lemma fval_fone : fval fone = 1%Z. Proof. reflexivity. Qed.
Lemma fval_fadd : forall x y, fval (fadd x y) = (fval x + fval y) mod p448. Proof. reflexivity. Qed.
Lemma fval_fsub : forall x y, fval (fsub x y) = (fval x - fval y) mod p448. Proof. reflexivity. Qed.
Lemma fval_fmul : forall x y, fval (fmul x y) = (fval x * fval y) mod p448. Proof. reflexivity. Qed.
Lemma fval_fopp : forall x, fval (fopp x) = (- fval x) mod p448. Proof. reflexivity. Qed.
Lemma fdiv_def : forall x y, fdiv x y = fmul x (finv y). Proof. reflexivity. Qed.
Lemma finv_def : forall x, finv x = fpow x (Z.to_pos (p448 - 2)). Proof. reflexivity. Qed.
Global Opaque fadd fsub fmul fopp finv fdiv fpow mkF fval fzero fone.

Ltac Fp_cst t := match t with
  | mkF ?z => match isZcst z with true => z | _ => constr:(NotConstant) end
  | fzero => constr:(0)
  | fone => constr:(1)
  | _ => constr:(NotConstant)
  end.
Add Ring Fp_ring : Fp_ring_theory (morphism Fp_morph, constants [Fp_cst]).
Add Field Fp_field : Fp_field_theory (morphism Fp_morph, constants [Fp_cst]).

Declare Scope F_scope.
Delimit Scope F_scope with F.
Bind Scope F_scope with Fp.
Notation "x + y" := (fadd x y) : F_scope.
Notation "x - y" := (fsub x y) : F_scope.
Notation "x * y" := (fmul x y) : F_scope.
Notation "- x" := (fopp x) : F_scope.
Notation "x / y" := (fdiv x y) : F_scope.
Notation "0" := fzero : F_scope.
Notation "1" := fone : F_scope.
Open Scope F_scope.

Lemma F_dec : forall x y : Fp, {x = y} + {x <> y}.
Proof.
  intros x y. destruct (Z.eq_dec (fval x) (fval y)) as [E|NE].
  - left. apply F_eq. exact E.
  - right. congruence.
Qed.
Lemma fmul_zero : forall x y : Fp, x * y = 0 -> x = 0 \/ y = 0.
Proof.
  intros x y H. destruct (F_dec x 0) as [|NE]; [ left; assumption | right ].
  replace y with (finv x * x * y) by (rewrite (finv_l x NE); ring).
  replace (finv x * x * y) with (finv x * (x * y)) by ring. rewrite H. ring.
Qed.
Lemma fmul_nz : forall x y : Fp, x <> 0 -> y <> 0 -> x * y <> 0.
Proof. intros x y Hx Hy H. apply fmul_zero in H. tauto. Qed.
Lemma fmul_nz_inv : forall x y : Fp, x * y <> 0 -> x <> 0 /\ y <> 0.
Proof. intros x y H. split; intros ->; apply H; ring. Qed.
Lemma fsub_zero : forall x y : Fp, x - y = 0 <-> x = y.
Proof.
  intros x y. split; intro H.
  - replace x with (x - y + y) by ring. rewrite H. ring.
  - subst. ring.
Qed.
Lemma fmul_cancel : forall a x y : Fp, a <> 0 -> a * x = a * y -> x = y.
Proof.
  intros a x y Ha H. apply fsub_zero. assert (E : a * (x - y) = 0).
  { replace (a * (x - y)) with (a * x - a * y) by ring. rewrite H. ring. }
  apply fmul_zero in E. tauto.
Qed.
Lemma fopp_zero : forall x : Fp, - x = 0 -> x = 0.
Proof. intros x H. replace x with (- - x) by ring. rewrite H. ring. Qed.
Lemma finv_nz : forall x : Fp, x <> 0 -> finv x <> 0.
Proof. intros x H E. pose proof (finv_l x H) as L. rewrite E in L. apply fone_fzero. rewrite <- L. ring. Qed.
Lemma mkF_nz : forall z, z mod p448 <> 0%Z -> mkF z <> 0.
Proof. intros z H E. apply H. apply (f_equal fval) in E. rewrite fval_mkF, fval_fzero in E. exact E. Qed.
Lemma two_nz : mkF 2 <> 0.
Proof. apply mkF_nz. discriminate. Qed.
Lemma square_eq : forall x y : Fp, x * x = y * y -> x = y \/ x = - y.
Proof.
  intros x y H. assert (E : (x - y) * (x + y) = 0).
  { replace ((x - y) * (x + y)) with (x * x - y * y) by ring. rewrite H. ring. }
  apply fmul_zero in E. destruct E as [E|E].
  - left. apply fsub_zero. exact E.
  - right. replace x with (x + y - y) by ring. rewrite E. ring.
Qed.

(* squares *)
Definition is_square (x : Fp) : Prop := exists r, r * r = x.
Lemma square_mul : forall x y, is_square x -> is_square y -> is_square (x * y).
Proof. intros x y (r & <-) (s & <-). exists (r * s). ring. Qed.
Lemma square_inv : forall x, x <> 0 -> is_square x -> is_square (finv x).
Proof.
  intros x Hx (r & <-). exists (finv r). apply fmul_nz_inv in Hx. field. tauto.
Qed.
Lemma square_quot : forall x y, x <> 0 -> is_square x -> is_square (x * y) -> is_square y.
Proof.
  intros x y Hx Sx Sxy. replace y with (finv x * (x * y)).
  - apply square_mul; [ apply square_inv; assumption | assumption ].
  - field. exact Hx.
Qed.
(* Euler's criterion exponent *)
Definition HALFP : positive := Z.to_pos ((p448 - 1) / 2).
Lemma halfp_twice : Pos.mul 2 HALFP = Z.to_pos (p448 - 1).
Proof. reflexivity. Qed.
Lemma fpow_square : forall r e, fpow (r * r) e = fpow r (2 * e).
Proof. intros r e. rewrite <- fpow_mul. reflexivity. Qed.
Lemma square_euler : forall x, x <> 0 -> is_square x -> fpow x HALFP = 1.
Proof.
  intros x Hx (r & <-). rewrite fpow_square, halfp_twice. apply fermat_p.
  apply fmul_nz_inv in Hx. tauto.
Qed.
Lemma fpow_one : forall e, fpow 1 e = 1.
Proof. intro e. apply F_eq. rewrite fpow_val. rewrite fval_fone. rewrite Z.pow_1_l by lia. reflexivity. Qed.
Lemma euler_pm : forall x, x <> 0 -> fpow x HALFP = 1 \/ fpow x HALFP = - (1).
Proof.
  intros x Hx. apply square_eq. replace (1 * 1) with 1 by ring. rewrite <- (fermat_p x Hx).
  rewrite <- halfp_twice. rewrite Pos.mul_comm, <- fpow_mul. reflexivity.
Qed.
Lemma one_ne_mone : 1 <> - (1).
Proof.
  intro H. apply (f_equal fval) in H. rewrite fval_fopp, fval_fone in H. discriminate.
Qed.
(* p = 3 mod 4 *)
Definition QUARTP : positive := Z.to_pos ((p448 + 1) / 4).
Lemma fpow_1 : forall x, fpow x 1 = x. Proof. reflexivity. Qed.
Lemma fpow_2 : forall x, fpow x 2 = x * x. Proof. reflexivity. Qed.
Lemma euler_square : forall x, fpow x HALFP = 1 -> is_square x.
Proof.
  intros x H. exists (fpow x QUARTP). rewrite <- fpow_add.
  replace (QUARTP + QUARTP)%positive with (HALFP + 1)%positive by reflexivity.
  rewrite fpow_add, H, fpow_1. ring.
Qed.
Lemma fpow_mul_base : forall x y e, fpow (x * y) e = fpow x e * fpow y e.
Proof.
  intros x y e. apply F_eq. rewrite fval_fmul, !fpow_val, fval_fmul.
  rewrite <- Zpower_mod by reflexivity. rewrite Z.pow_mul_l. apply Z.mul_mod. discriminate.
Qed.
Lemma mone_pow : fpow (- (1)) HALFP = - (1).
Proof.
  replace HALFP with (1 + 2 * Z.to_pos ((p448 - 3) / 4))%positive by reflexivity.
  rewrite fpow_add, <- fpow_mul, fpow_1, fpow_2. replace (- (1) * - (1)) with 1 by ring.
  rewrite fpow_one. ring.
Qed.
Lemma mone_nonsquare : ~ is_square (- (1)).
Proof.
  intro H. assert (N : - (1) <> 0).
  { intro E. apply fone_fzero. replace 1 with (- - (1)) by ring. rewrite E. ring. }
  apply square_euler in H; [ | exact N ]. rewrite mone_pow in H. apply one_ne_mone. symmetry. exact H.
Qed.
(* x or -x is a square, not both *)
Lemma square_or_neg : forall x, is_square x \/ is_square (- x).
Proof.
  intro x. destruct (F_dec x 0) as [->|NE]; [ left; exists 0; ring | ].
  destruct (euler_pm x NE) as [H|H]; [ left; apply euler_square; exact H | right ].
  apply euler_square. replace (- x) with (- (1) * x) by ring. rewrite fpow_mul_base, mone_pow, H. ring.
Qed.
Lemma square_not_both : forall x, x <> 0 -> is_square x -> ~ is_square (- x).
Proof.
  intros x NE S1 S2. apply mone_nonsquare.
  apply (square_quot x); [ exact NE | exact S1 | ]. replace (x * - (1)) with (- x) by ring. exact S2.
Qed.
Lemma sum_squares_zero : forall x y : Fp, x * x + y * y = 0 -> x = 0 /\ y = 0.
Proof.
  intros x y H. destruct (F_dec y 0) as [->|NE].
  - split; [ | reflexivity ]. assert (E : x * x = 0) by (rewrite <- H; ring).
    apply fmul_zero in E. tauto.
  - exfalso. apply mone_nonsquare. exists (x * finv y).
    replace (x * finv y * (x * finv y)) with ((x * x) * (finv y * finv y)) by ring.
    replace (x * x) with (- (y * y)) by (replace (x * x) with (x * x + y * y - y * y) by ring; rewrite H; ring).
    field. exact NE.
Qed.
