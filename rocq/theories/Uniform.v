(* Key generation from a perfect generator. *)
From Coq Require Import ZArith List Bool Lia.
From Verif Require Import SpecField SpecBytes SpecScalar SpecCurve SpecDecode SpecEd448 SpecUniform SpecShake Base Bytes Eddsa Goldilocks Lib.
From Verif Require Import Edwards Isogeny CombMul Decode Ed448 Order Equation Facts Shake Api.
Import ListNotations.
Open Scope Z_scope.

Lemma count_app : forall (A : Type) f (l l' : list A), tally f (l ++ l') = tally f l + tally f l'.
Proof. intros A f. induction l as [|x l IH]; intro l'; [ reflexivity | ]. cbn [app tally]. rewrite IH. ring. Qed.
Lemma count_map : forall (A B : Type) (g : A -> B) f l, tally f (map g l) = tally (fun x => f (g x)) l.
Proof. intros A B g f. induction l as [|x l IH]; [ reflexivity | ]. cbn [map tally]. rewrite IH. reflexivity. Qed.
Lemma count_ext : forall (A : Type) f g (l : list A), (forall x, In x l -> f x = g x) -> tally f l = tally g l.
Proof.
  intros A f g. induction l as [|x l IH]; intro H; [ reflexivity | ]. cbn [tally]. rewrite (H x (or_introl eq_refl)), IH; [ reflexivity | ].
  intros y Hy. apply H. right. exact Hy.
Qed.
Lemma count_false : forall (A : Type) (l : list A), tally (fun _ => false) l = 0.
Proof. intros A. induction l as [|x l IH]; [ reflexivity | ]. cbn [tally]. rewrite IH. reflexivity. Qed.
Lemma count_flat : forall (A B : Type) (g : A -> list B) f c l, (forall x, In x l -> tally f (g x) = c x) ->
  tally f (flat_map g l) = fold_right (fun x s => c x + s) 0 l.
Proof.
  intros A B g f c. induction l as [|x l IH]; intro H; [ reflexivity | ]. cbn [flat_map fold_right]. rewrite count_app, (H x (or_introl eq_refl)), IH; [ reflexivity | ].
  intros y Hy. apply H. right. exact Hy.
Qed.
Lemma in_all : forall b, In b all_bytes <-> byte b.
Proof.
  intro b. unfold all_bytes. rewrite in_map_iff. unfold byte. split.
  - intros (n & <- & H). apply in_seq in H. lia.
  - intro H. exists (Z.to_nat b). split; [ lia | apply in_seq; lia ].
Qed.
Lemma in_strings : forall n s, In s (strings n) <-> length s = n /\ bytes s.
Proof.
  induction n as [|n IH]; intro s; cbn [strings].
  - split; [ intros [<-|[]]; split; [ reflexivity | constructor ] | ]. intros (L & _). destruct s; [ left; reflexivity | discriminate L ].
  - rewrite in_flat_map. split.
    + intros (b & Hb & H). apply in_map_iff in H. destruct H as (t & <- & Ht). apply IH in Ht. destruct Ht as (L & B). apply in_all in Hb.
      split; [ cbn [length]; rewrite L; reflexivity | constructor; assumption ].
    + intros (L & B). destruct s as [|b s]; [ discriminate L | ]. inversion B; subst. exists b. split; [ apply in_all; assumption | ].
      apply in_map. apply IH. split; [ cbn [length] in L; lia | assumption ].
Qed.
Lemma same_string_eq : forall a b, same_string a b = true <-> a = b.
Proof.
  induction a as [|x a IH]; intros [|y b]; cbn [same_string]; try (split; congruence). rewrite andb_true_iff, Z.eqb_eq, IH. split.
  - intros (-> & ->). reflexivity.
  - intro E. injection E as -> ->. auto.
Qed.
(* sum over all bytes of the number of strings starting with it *)
Lemma byte_sum : forall f : Z -> Z, fold_right (fun x s => f x + s) 0 all_bytes = fold_right Z.add 0 (map f all_bytes).
Proof. intro f. induction all_bytes as [|x l IH]; [ reflexivity | ]. cbn [map fold_right]. rewrite IH. reflexivity. Qed.
Lemma one_byte : forall b c, byte b -> fold_right (fun x s => (if x =? b then c else 0) + s) 0 all_bytes = c.
Proof.
  intros b c Hb.
  assert (K : forall l, NoDup l -> fold_right (fun x s => (if x =? b then c else 0) + s) 0 l = if existsb (Z.eqb b) l then c else 0).
  { induction l as [|x l IH]; intro N; [ reflexivity | ]. inversion N as [|? ? N1 N2]; subst. cbn [fold_right existsb]. rewrite (IH N2).
    rewrite (Z.eqb_sym b x). destruct (Z.eqb_spec x b) as [->|Hx]; cbn [orb]; [ | ring ].
    destruct (existsb (Z.eqb b) l) eqn:E; [ | ring ]. apply existsb_exists in E. destruct E as (y & Hy & Ey). apply Z.eqb_eq in Ey. subst y. contradiction. }
  rewrite K.
  - assert (E : existsb (Z.eqb b) all_bytes = true) by (apply existsb_exists; exists b; split; [ apply in_all; exact Hb | apply Z.eqb_refl ]).
    rewrite E. reflexivity.
  - unfold all_bytes. generalize (seq_NoDup 256 0). generalize (seq 0 256). clear. induction l as [|x l IH]; intro N; cbn [map]; [ constructor | ].
    inversion N as [|? ? N1 N2]; subst. constructor; [ | exact (IH N2) ]. intro H. apply in_map_iff in H. destruct H as (y & E & Hy). apply N1.
    replace x with y by lia. exact Hy.
Qed.
Lemma count_one : forall n k, length k = n -> bytes k -> tally (same_string k) (strings n) = 1.
Proof.
  induction n as [|n IH]; intros k L B.
  - destruct k; [ reflexivity | discriminate L ].
  - destruct k as [|b k]; [ discriminate L | ]. inversion B; subst. cbn [strings].
    rewrite (count_flat _ _ _ _ (fun x => if x =? b then 1 else 0)); [ apply one_byte; assumption | ].
    intros x Hx. rewrite count_map. cbn [same_string]. rewrite (Z.eqb_sym b x). destruct (Z.eqb_spec x b); cbn [andb].
    + rewrite <- (IH k) by (assumption || (cbn [length] in L; lia)). apply count_ext. reflexivity.
    + apply count_false.
Qed.
Lemma count_all : forall n, tally (fun _ => true) (strings n) = 256 ^ Z.of_nat n.
Proof.
  induction n as [|n IH]; [ reflexivity | ]. cbn [strings]. rewrite (count_flat _ _ _ _ (fun _ => 256 ^ Z.of_nat n)).
  - rewrite Nat2Z.inj_succ, Z.pow_succ_r by lia. generalize (256 ^ Z.of_nat n). intro c. rewrite byte_sum. unfold all_bytes. rewrite map_map. cbn [seq map fold_right]. ring.
  - intros x _. rewrite count_map. exact IH.
Qed.

Local Opaque strings.
Lemma same_sym : forall a b, same_string a b = same_string b a.
Proof. induction a as [|x a IH]; intros [|y b]; try reflexivity. cbn [same_string]. rewrite IH, Z.eqb_sym. reflexivity. Qed.
Section Hash.
Variable xof : list Z -> nat -> list Z.
Hypothesis XOF : is_xof xof.
Theorem uniform : tally (fun _ => true) (strings 57) = 256 ^ 57 /\ (forall s, In s (strings 57) <-> length s = 57%nat /\ bytes s) /\
  forall k, length k = 57%nat -> bytes k ->
  tally (fun rng => same_string (ed448_generate_key rng) k) (strings 57) = 1 /\
  tally (fun rng => match signing_random xof rng with Some sk => same_string (to_bytes sk) k | None => false end) (strings 57) = 1.
Proof.
  split; [ exact (count_all 57) | ]. split; [ exact (in_strings 57) | ]. intros k L B. split; rewrite <- (count_one 57 k L B); apply count_ext; intros r Hr; apply in_strings in Hr; destruct Hr as (Lr & Br).
  - apply same_sym.
  - destruct (generate xof XOF r Lr Br) as (_ & sk & -> & ->). apply same_sym.
Qed.
Theorem derive_rfc_iff : forall k, length k = 57%nat -> bytes k ->
  (ed448_derive_public xof k = Some (rfc_public xof k) <-> enc_sign k = false \/ secret_scalar k mod q448 = secret_scalar (xof k 114) mod q448).
Proof.
  intros k L B. rewrite (derive_public_ok xof XOF k L B). unfold rfc_public. destruct (enc_sign k).
  - split.
    + intro E. right. apply some_inj in E. apply eencode_inj in E; [ apply base_inj; exact E | apply emul_on; exact ebase_on | apply emul_on; exact ebase_on ].
    + intros [E|E]; [ discriminate E | ]. apply base_inj in E. rewrite E. reflexivity.
  - split; [ left; reflexivity | reflexivity ].
Qed.
End Hash.
Local Transparent strings.
Lemma half_last : forall n, 2 * tally (fun s => 128 <=? last s 0) (strings (S n)) = 256 ^ Z.of_nat (S n).
Proof.
  induction n as [|n IH]; [ reflexivity | ]. remember (S n) as m eqn:Em. cbn [strings].
  rewrite (count_flat _ _ _ _ (fun _ => tally (fun s => 128 <=? last s 0) (strings m))).
  - rewrite Nat2Z.inj_succ, Z.pow_succ_r by lia. rewrite <- IH. generalize (tally (fun s => 128 <=? last s 0) (strings m)). intro c.
    rewrite byte_sum. unfold all_bytes. rewrite map_map. cbn [seq map fold_right]. ring.
  - intros x _. rewrite count_map. apply count_ext. intros s Hs. apply in_strings in Hs. destruct s as [|y s]; [ destruct Hs as (Hs & _); subst m; discriminate Hs | reflexivity ].
Qed.
Local Opaque strings.
Theorem half_expanded : 2 * tally enc_sign (strings 57) = 256 ^ 57.
Proof.
  assert (E : tally enc_sign (strings 57) = tally (fun s => 128 <=? last s 0) (strings 57)).
  { apply count_ext. intros s Hs. apply in_strings in Hs. destruct Hs as (L & B).
    destruct (split57 s L B) as (l & b & -> & Ll & _). rewrite last_last. apply (enc_fields l b Ll). }
  rewrite E. exact (half_last 56).
Qed.
Definition rng0 : list Z := repeat 0 56 ++ [128].
Lemma rng0_scalars : secret_scalar rng0 mod q448 <> secret_scalar (shake256 rng0 114) mod q448.
Proof. intro E. vm_compute in E. discriminate E. Qed.
Theorem generated_refuted : exists rng, In rng (strings 57) /\ ed448_derive_public shake256 (ed448_generate_key rng) <> Some (rfc_public shake256 rng).
Proof.
  exists rng0. assert (L : length rng0 = 57%nat) by reflexivity.
  assert (B : bytes rng0). { apply Forall_app. split; [ apply Forall_forall; intros x Hx; apply repeat_spec in Hx; subst x; split; lia | repeat constructor; lia ]. }
  split; [ apply in_strings; split; assumption | ]. unfold ed448_generate_key. intro E. apply (derive_rfc_iff shake256 shake256_xof rng0 L B) in E.
  destruct E as [E|E]; [ discriminate E | exact (rng0_scalars E) ].
Qed.
