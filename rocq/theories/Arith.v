(* Elementary facts about the machine-integer operations of Base.v. *)
From Coq Require Import ZArith List Bool Lia.
From Verif Require Import Base.
Import ListNotations.
Open Scope Z_scope.

Lemma land_ones_mod : forall n x, 0 <= n -> Z.land x (2 ^ n - 1) = x mod 2 ^ n.
Proof.
  intros n x Hn. rewrite <- Z.land_ones by assumption. f_equal.
  rewrite Z.ones_equiv. lia.
Qed.
Lemma wrap32_mod : forall x, wrap32 x = x mod 2 ^ 32.
Proof. intro x. exact (land_ones_mod 32 x ltac:(lia)). Qed.
Lemma wrap64_mod : forall x, wrap64 x = x mod 2 ^ 64.
Proof. intro x. exact (land_ones_mod 64 x ltac:(lia)). Qed.
Lemma radix_mod : forall x, Z.land x RADIX_MASK = x mod 2 ^ 28.
Proof. intro x. exact (land_ones_mod 28 x ltac:(lia)). Qed.
Lemma mask_wrap32 : forall x, Z.land (wrap32 x) RADIX_MASK = x mod 2 ^ 28.
Proof.
  intro x. unfold wrap32, RADIX_MASK. rewrite <- Z.land_assoc.
  change (Z.land 0xffffffff 0xfffffff) with RADIX_MASK. apply radix_mod.
Qed.
Lemma shr28 : forall x, Z.shiftr x 28 = x / 2 ^ 28.
Proof. intro x. apply Z.shiftr_div_pow2. lia. Qed.
Lemma shr32 : forall x, Z.shiftr x 32 = x / 2 ^ 32.
Proof. intro x. apply Z.shiftr_div_pow2. lia. Qed.

Lemma wrap32_small : forall x, 0 <= x < 2 ^ 32 -> wrap32 x = x.
Proof. intros x H. rewrite wrap32_mod. apply Z.mod_small. exact H. Qed.
Lemma wrap64_small : forall x, 0 <= x < 2 ^ 64 -> wrap64 x = x.
Proof. intros x H. rewrite wrap64_mod. apply Z.mod_small. exact H. Qed.
Lemma wrap32_range : forall x, 0 <= wrap32 x < 2 ^ 32.
Proof. intro x. rewrite wrap32_mod. apply Z.mod_pos_bound. lia. Qed.
Lemma wrap64_range : forall x, 0 <= wrap64 x < 2 ^ 64.
Proof. intro x. rewrite wrap64_mod. apply Z.mod_pos_bound. lia. Qed.

(* congruence modulo 2^64, and its compatibility with the wrapping operations *)
Definition eqm (x y : Z) : Prop := x mod 2 ^ 64 = y mod 2 ^ 64.
Lemma eqm_refl : forall x, eqm x x.
Proof. reflexivity. Qed.
Lemma eqm_wadd : forall x y x' y', eqm x x' -> eqm y y' -> eqm (wadd64 x y) (x' + y').
Proof.
  unfold eqm, wadd64. intros x y x' y' H1 H2. rewrite wrap64_mod, Z.mod_mod by lia.
  rewrite Z.add_mod, H1, H2, <- Z.add_mod by lia. reflexivity.
Qed.
Lemma eqm_wsub : forall x y x' y', eqm x x' -> eqm y y' -> eqm (wsub64 x y) (x' - y').
Proof.
  unfold eqm, wsub64. intros x y x' y' H1 H2. rewrite wrap64_mod, Z.mod_mod by lia.
  rewrite Zminus_mod, H1, H2, <- Zminus_mod. reflexivity.
Qed.
Lemma eqm_wmul : forall x y x' y', eqm x x' -> eqm y y' -> eqm (wmul64 x y) (x' * y').
Proof.
  unfold eqm, wmul64. intros x y x' y' H1 H2. rewrite wrap64_mod, Z.mod_mod by lia.
  rewrite Z.mul_mod, H1, H2, <- Z.mul_mod by lia. reflexivity.
Qed.
Lemma eqm_shl1 : forall x x', eqm x x' -> eqm (shl64 x 1) (2 * x').
Proof.
  unfold eqm, shl64. intros x x' H. rewrite wrap64_mod, Z.mod_mod by lia.
  rewrite Z.shiftl_mul_pow2 by lia. change (2 ^ 1) with 2.
  rewrite Z.mul_comm, Z.mul_mod, H, <- Z.mul_mod by lia. reflexivity.
Qed.
Lemma eqm_exact : forall v e f, eqm v e -> e = f -> 0 <= v < 2 ^ 64 -> 0 <= f < 2 ^ 64 -> v = f.
Proof.
  unfold eqm. intros v e f H -> Hv Hf. rewrite !Z.mod_small in H by assumption. exact H.
Qed.

Lemma let_step : forall (A B : Type) (e : A) (f : A -> B) (R : B),
  (forall v, v = e -> f v = R) -> (let x := e in f x) = R.
Proof. intros A B e f R H. exact (H e eq_refl). Qed.

(* option monad *)
Lemma bind_some : forall (A B : Type) (x : option A) (f : A -> option B) r,
  bind x f = Some r -> exists a, x = Some a /\ f a = Some r.
Proof. intros A B [a|] f r H; [ exists a; auto | discriminate ]. Qed.

Lemma chk_ok : forall lo hi z, lo <= z < hi -> chk lo hi z = Some z.
Proof.
  intros lo hi z H. unfold chk.
  destruct (Z.leb_spec lo z); [|lia]. destruct (Z.ltb_spec z hi); [|lia]. reflexivity.
Qed.
Lemma chk_u32_ok : forall z, 0 <= z < 2 ^ 32 -> chk_u32 z = Some z.
Proof. intros. apply chk_ok. assumption. Qed.
Lemma chk_u64_ok : forall z, 0 <= z < 2 ^ 64 -> chk_u64 z = Some z.
Proof. intros. apply chk_ok. assumption. Qed.
Lemma chk_usize_ok : forall z, 0 <= z < 2 ^ 64 -> chk_usize z = Some z.
Proof. intros. apply chk_ok. assumption. Qed.
Lemma chk_i64_ok : forall z, - 2 ^ 63 <= z < 2 ^ 63 -> chk_i64 z = Some z.
Proof. intros. apply chk_ok. assumption. Qed.

Lemma mul_range : forall x y M, 0 <= x <= M -> 0 <= y <= M -> 0 <= x * y <= M * M.
Proof. intros. nia. Qed.
Lemma bind_Some : forall (A B : Type) (a : A) (f : A -> option B), bind (Some a) f = f a.
Proof. reflexivity. Qed.
