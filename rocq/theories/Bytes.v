(* Facts about little-endian byte strings and lists. *)
From Coq Require Import ZArith List Lia Bool.
From Verif Require Import Base SpecBytes.
Import ListNotations.
Open Scope Z_scope.

Lemma le_bytes_length : forall n z, length (le_bytes n z) = n.
Proof. induction n; intros; simpl; auto. Qed.
Lemma le_bytes_bytes : forall n z, bytes (le_bytes n z).
Proof.
  induction n; intros; simpl; constructor; auto.
  - apply Z.mod_pos_bound. lia.
  - apply IHn.
Qed.
Lemma pow256_S : forall n, 256 ^ Z.of_nat (S n) = 256 * 256 ^ Z.of_nat n.
Proof. intro n. rewrite Nat2Z.inj_succ, Z.pow_succ_r by lia. reflexivity. Qed.
Lemma pow256_pos : forall n, 0 < 256 ^ Z.of_nat n.
Proof. intro n. apply Z.pow_pos_nonneg; lia. Qed.
Lemma le_val_le_bytes : forall n z, le_val (le_bytes n z) = z mod 256 ^ Z.of_nat n.
Proof.
  induction n; intro z; cbn [le_bytes le_val].
  - simpl. rewrite Z.mod_1_r. reflexivity.
  - rewrite IHn, pow256_S. pose proof (pow256_pos n).
    rewrite (Z.rem_mul_r z 256 (256 ^ Z.of_nat n)) by lia. reflexivity.
Qed.
Lemma le_bytes_le_val : forall l, bytes l -> le_bytes (length l) (le_val l) = l.
Proof.
  induction l as [|b l IH]; intro H; [ reflexivity | ].
  inversion H as [|? ? Hb Hl]; subst. cbn [length le_val le_bytes]. unfold byte in Hb.
  replace ((b + 256 * le_val l) mod 256) with b.
  2:{ rewrite (Z.mul_comm 256), Z.mod_add, Z.mod_small by lia. reflexivity. }
  replace ((b + 256 * le_val l) / 256) with (le_val l).
  2:{ rewrite (Z.mul_comm 256), Z.div_add, Z.div_small by lia. reflexivity. }
  f_equal. apply IH. exact Hl.
Qed.
Lemma le_val_range : forall l, bytes l -> 0 <= le_val l < 256 ^ Z.of_nat (length l).
Proof.
  induction l as [|b l IH]; intro H; [ simpl; lia | ].
  inversion H as [|? ? Hb Hl]; subst. specialize (IH Hl). unfold byte in Hb.
  cbn [length le_val]. rewrite pow256_S. lia.
Qed.
Lemma le_val_app : forall a b, le_val (a ++ b) = le_val a + 256 ^ Z.of_nat (length a) * le_val b.
Proof.
  induction a as [|x a IH]; intro b; cbn [app le_val length]; [ change (256 ^ Z.of_nat 0) with 1; ring | ].
  rewrite IH. rewrite pow256_S. ring.
Qed.
Lemma le_bytes_inj : forall n x y, 0 <= x < 256 ^ Z.of_nat n -> 0 <= y < 256 ^ Z.of_nat n ->
  le_bytes n x = le_bytes n y -> x = y.
Proof.
  intros n x y Hx Hy H. rewrite <- (Z.mod_small x _ Hx), <- (Z.mod_small y _ Hy).
  rewrite <- !le_val_le_bytes. congruence.
Qed.
Lemma le_val_inj : forall a b, bytes a -> bytes b -> length a = length b -> le_val a = le_val b -> a = b.
Proof.
  intros a b Ha Hb Hl Hv. rewrite <- (le_bytes_le_val a Ha), <- (le_bytes_le_val b Hb). congruence.
Qed.
Lemma le_bytes_mod : forall n z, le_bytes n (z mod 256 ^ Z.of_nat n) = le_bytes n z.
Proof.
  intros n z. pose proof (pow256_pos n).
  apply le_val_inj; try apply le_bytes_bytes; [ rewrite !le_bytes_length; reflexivity | ].
  rewrite !le_val_le_bytes, Z.mod_mod by lia. reflexivity.
Qed.
Lemma bytes_app : forall a b, bytes (a ++ b) <-> bytes a /\ bytes b.
Proof. intros. apply Forall_app. Qed.

(* indexing *)
Lemma znth_spec : forall (A : Type) (l : list A) i d, 0 <= i < Z.of_nat (length l) ->
  znth l i = Some (nth (Z.to_nat i) l d).
Proof.
  intros A l i d H. unfold znth.
  destruct (Z.leb_spec 0 i); [ | lia ]. destruct (Z.ltb_spec i (Z.of_nat (length l))); [ | lia ].
  simpl. apply nth_error_nth'. lia.
Qed.
Lemma znth_app_r : forall (A : Type) (a b : list A) x, znth (a ++ x :: b) (Z.of_nat (length a)) = Some x.
Proof.
  intros A a b x. rewrite (znth_spec _ _ _ x).
  - rewrite Nat2Z.id, nth_middle. reflexivity.
  - rewrite app_length. simpl. lia.
Qed.
Lemma upd_nat_app : forall (A : Type) (a b : list A) x y, upd_nat (a ++ x :: b) (length a) y = a ++ y :: b.
Proof. induction a; intros; simpl; congruence. Qed.
Lemma upd_nat_length : forall (A : Type) (l : list A) i v, length (upd_nat l i v) = length l.
Proof. induction l; intros [|i] v; simpl; auto. Qed.
Lemma zupd_app : forall (A : Type) (a b : list A) x y,
  zupd (a ++ x :: b) (Z.of_nat (length a)) y = Some (a ++ y :: b).
Proof.
  intros A a b x y. unfold zupd. rewrite app_length. simpl length.
  destruct (Z.leb_spec 0 (Z.of_nat (length a))); [ | lia ].
  destruct (Z.ltb_spec (Z.of_nat (length a)) (Z.of_nat (length a + S (length b)))); [ | lia ].
  simpl. rewrite Nat2Z.id, upd_nat_app. reflexivity.
Qed.
