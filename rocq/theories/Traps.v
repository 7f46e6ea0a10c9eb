(* When exactly the operations of the model trap, and what they return otherwise: the three arithmetics of the
   models (debug, release, 32-bit usize) and the index checks. *)
From Coq Require Import ZArith List Bool Lia.
From Verif Require Import Base ExtendedPoint Eddsa Release Target32.
From Verif Require Import SpecTraps.
From Verif Require Import Arith Bytes.
Import ListNotations.
Open Scope Z_scope.

Lemma chk_traps : forall lo hi, traps_outside (chk lo hi) lo hi.
Proof.
  intros lo hi z. unfold chk. split; intro H.
  - rewrite (proj2 (Z.leb_le _ _)), (proj2 (Z.ltb_lt _ _)) by lia. reflexivity.
  - destruct (Z.leb_spec lo z); [ | reflexivity ]. destruct (Z.ltb_spec z hi); [ | reflexivity ]. lia.
Qed.
Lemma checked : traps_outside chk_u32 0 (2 ^ 32) /\ traps_outside chk_u64 0 (2 ^ 64) /\ traps_outside chk_usize 0 (2 ^ 64) /\ traps_outside chk_i64 (- 2 ^ 63) (2 ^ 63).
Proof. repeat apply conj; [ exact (chk_traps 0 (2 ^ 32)) | exact (chk_traps 0 (2 ^ 64)) | exact (chk_traps 0 (2 ^ 64)) | exact (chk_traps (- 2 ^ 63) (2 ^ 63)) ]. Qed.
Lemma mod_wraps : forall m, 0 < m -> wraps_into (fun z => z mod m) 0 m.
Proof.
  intros m M z. split; [ apply Z.mod_pos_bound; exact M | ]. exists (- (z / m)). pose proof (Z.div_mod z m). lia.
Qed.
Lemma wrap32_wraps : wraps_into wrap32 0 (2 ^ 32).
Proof. intro z. rewrite wrap32_mod. apply mod_wraps. reflexivity. Qed.
Lemma wrap64_wraps : wraps_into wrap64 0 (2 ^ 64).
Proof. intro z. rewrite wrap64_mod. apply mod_wraps. reflexivity. Qed.
Lemma signed_wraps : wraps_into (fun z => as_i64 (wrap64 z)) (- 2 ^ 63) (2 ^ 63).
Proof.
  intro z. destruct (wrap64_wraps z) as (R & (c & D)). unfold as_i64. change (2 ^ 63 - - 2 ^ 63) with (2 ^ 64). change (2 ^ 64 - 0) with (2 ^ 64) in D.
  change (2 ^ 64) with (2 * 2 ^ 63) in *. assert (0 < 2 ^ 63) by reflexivity. set (h := 2 ^ 63) in *. clearbody h. destruct (Z.ltb_spec (wrap64 z) h); (split; [ lia | ]); [ exists c; exact D | exists (c - 1); lia ].
Qed.
Lemma wrapping : wraps_into wrap32 0 (2 ^ 32) /\ wraps_into wrap64 0 (2 ^ 64) /\ wraps_into (fun z => as_i64 (wrap64 z)) (- 2 ^ 63) (2 ^ 63) /\
  (forall x y, wadd32 x y = wrap32 (x + y) /\ wsub32 x y = wrap32 (x - y) /\ wmul32 x y = wrap32 (x * y) /\
    wadd64 x y = wrap64 (x + y) /\ wsub64 x y = wrap64 (x - y) /\ wmul64 x y = wrap64 (x * y) /\ wsub_i64 x y = as_i64 (wrap64 (x - y)) /\ not32 x = 2 ^ 32 - 1 - x) /\
  (forall x n, 0 <= n -> shl32 x n = wrap32 (x * 2 ^ n) /\ shl64 x n = wrap64 (x * 2 ^ n)).
Proof.
  split; [ exact wrap32_wraps | ]. split; [ exact wrap64_wraps | ]. split; [ exact signed_wraps | ]. split.
  - intros x y. repeat apply conj; reflexivity.
  - intros x n N. unfold shl32, shl64. rewrite Z.shiftl_mul_pow2 by exact N. split; reflexivity.
Qed.
Lemma index_checked : forall (A : Type) (l : list A) i, (0 <= i < Z.of_nat (length l) -> exists a b x, l = a ++ x :: b /\ Z.of_nat (length a) = i /\ znth l i = Some x /\ forall y, zupd l i y = Some (a ++ y :: b)) /\
  (~ 0 <= i < Z.of_nat (length l) -> znth l i = None /\ forall y, zupd l i y = None).
Proof.
  intros A l i. split; intro H.
  - destruct (nth_error l (Z.to_nat i)) as [ x | ] eqn:E.
    + destruct (nth_error_split l _ E) as (a & b & -> & L). exists a, b, x. assert (I : Z.of_nat (length a) = i) by lia. split; [ reflexivity | ]. split; [ exact I | ]. rewrite <- I. split; [ apply znth_app_r | ]. intro y. apply zupd_app.
    + apply nth_error_None in E. lia.
  - unfold znth, zupd. destruct (Z.leb_spec 0 i); [ | split; reflexivity ]. destruct (Z.ltb_spec i (Z.of_nat (length l))); [ lia | split; reflexivity ].
Qed.
Lemma slice_checked : forall l a b, ((a <= b <= length l)%nat -> exists u v w, l = u ++ v ++ w /\ length u = a /\ length (u ++ v) = b /\ slice l a b = Some v) /\
  (~ (a <= b <= length l)%nat -> slice l a b = None).
Proof.
  intros l a b. unfold slice. split; intro H.
  - exists (firstn a l), (firstn (b - a) (skipn a l)), (skipn (b - a) (skipn a l)). rewrite (firstn_skipn (b - a)), firstn_skipn. split; [ reflexivity | ].
    assert (La : length (firstn a l) = a) by (apply firstn_length_le; lia). split; [ exact La | ]. split; [ rewrite app_length, La, firstn_length, skipn_length; lia | ].
    rewrite (proj2 (Nat.leb_le _ _)), (proj2 (Nat.leb_le _ _)) by lia. reflexivity.
  - destruct (Nat.leb_spec a b); [ | reflexivity ]. destruct (Nat.leb_spec b (length l)); [ lia | reflexivity ].
Qed.
(* overflow checks off *)
Lemma release_wraps : forall z, r_chk_u32 z = Some (wrap32 z) /\ r_chk_u64 z = Some (wrap64 z) /\ r_chk_usize z = Some (wrap64 z) /\ r_chk_i64 z = Some (as_i64 (wrap64 z)).
Proof. intro z. repeat apply conj; reflexivity. Qed.
(* usize of 32 bits *)
Lemma narrow_checked : traps_outside w_chk_usize 0 (2 ^ 32) /\ forall a, w_usize_half a = a mod 2 ^ 32 / 2 /\ usize_half a = a mod 2 ^ 64 / 2.
Proof.
  split; [ exact (chk_traps 0 (2 ^ 32)) | ]. intro a. unfold w_usize_half, usize_half. rewrite ?wrap32_mod, ?wrap64_mod. rewrite !Z.shiftr_div_pow2 by discriminate. change (2 ^ 1) with 2. split; reflexivity.
Qed.
