(* Texts of errors and keys. *)
From Coq Require Import ZArith List String Ascii Lia.
From Verif Require Import SpecBytes SpecApi Base Errors Lib Text.
Import ListNotations.
Open Scope Z_scope.

Lemma lit_codes : forall s, lit s = codes s.
Proof. induction s as [ | a s IH ]; [ reflexivity | ]. cbn [lit]. rewrite IH. reflexivity. Qed.

Definition dval (t : list Z) : Z := fold_left (fun v c => 10 * v + (c - 48)) t 0.
Definition digits (t : list Z) : Prop := Forall (fun c => 48 <= c <= 57) t.
Lemma dval_snoc : forall t c, dval (t ++ [c]) = 10 * dval t + (c - 48).
Proof. intros t c. unfold dval. rewrite fold_left_app. reflexivity. Qed.
Lemma decimal_digit : forall n, 0 <= n < 10 -> decimal n [48 + n].
Proof.
  intros n H. split; [ cbn [fold_left]; lia | ]. split; [ constructor; [ lia | constructor ] | ].
  split; [ discriminate | ]. cbn [hd]. intro E. rewrite E. reflexivity.
Qed.
Lemma decimal_snoc : forall n t c, decimal n t -> 0 < n -> 48 <= c <= 57 -> decimal (10 * n + (c - 48)) (t ++ [c]).
Proof.
  intros n t c (V & D & N & Z0) P C. split; [ rewrite fold_left_app, <- V; reflexivity | ].
  split; [ apply Forall_app; split; [ exact D | constructor; [ exact C | constructor ] ] | ].
  split; [ destruct t; discriminate | ]. intro E. exfalso.
  destruct t as [ | a t ]; [ apply N; reflexivity | ]. cbn [app hd] in E. specialize (Z0 E). rewrite Z0 in V. cbn in V. lia.
Qed.
Lemma dec_loop_ok : forall f n acc, (0 < f)%nat -> 0 <= n < 10 ^ Z.of_nat f ->
  exists t, dec_loop f n acc = t ++ acc /\ decimal n t.
Proof.
  induction f as [ | f IH ]; intros n acc F H; [ lia | ]. cbn [dec_loop]. destruct (Z.ltb_spec n 10) as [ L | L ].
  - exists [48 + n]. split; [ reflexivity | apply decimal_digit; lia ].
  - rewrite Nat2Z.inj_succ, Z.pow_succ_r in H by lia. pose proof (Z.div_mod n 10 ltac:(lia)) as DM. pose proof (Z.mod_pos_bound n 10 ltac:(lia)) as MB.
    assert (F' : (0 < f)%nat) by (destruct f; [ change (10 ^ Z.of_nat 0) with 1 in H; lia | lia ]).
    destruct (IH (n / 10) (48 + n mod 10 :: acc) F') as (t & E & D).
    { split; [ apply Z.div_pos; lia | apply Z.div_lt_upper_bound; lia ]. }
    exists (t ++ [48 + n mod 10]). split; [ rewrite E, <- app_assoc; reflexivity | ].
    replace n with (10 * (n / 10) + (48 + n mod 10 - 48)) at 1 by lia.
    apply decimal_snoc; [ exact D | | lia ]. apply Z.div_str_pos. lia.
Qed.
Lemma dval_bound : forall t, digits t -> 0 <= dval t.
Proof.
  induction t as [ | c t IH ] using rev_ind; [ intros _; reflexivity | ]. intro D. apply Forall_app in D. destruct D as (D & C).
  inversion C; subst. rewrite dval_snoc. specialize (IH D). lia.
Qed.
Lemma decimal_pos : forall n t, decimal n t -> t <> [48] -> 0 < n.
Proof.
  intros n t (V & D & N & Z0) H. destruct t as [ | a t ]; [ exfalso; apply N; reflexivity | ]. cbn [hd] in Z0.
  inversion D as [ | ? ? A D' ]; subst. assert (48 < a) by (destruct (Z.eq_dec a 48) as [ -> | ]; [ exfalso; apply H; apply Z0; reflexivity | lia ]).
  cbn [fold_left]. clear - H0 D'. assert (G : forall t v, digits t -> 0 < v -> 0 < fold_left (fun v c => 10 * v + (c - 48)) t v).
  { induction t0 as [ | c t0 IH ]; intros v D V; [ exact V | ]. cbn [fold_left]. inversion D; subst. apply IH; [ assumption | lia ]. }
  apply G; [ exact D' | lia ].
Qed.
Lemma decimal_fun : forall t n t', decimal n t -> decimal n t' -> t = t'.
Proof.
  assert (S : forall t c n, decimal n (t ++ [c]) -> c = 48 + n mod 10 /\ n / 10 = dval t /\ 48 <= c <= 57 /\ (t <> [] -> decimal (n / 10) t /\ 0 < n / 10)).
  { intros t c n (V & D & N & Z0). change (n = dval (t ++ [c])) in V. rewrite dval_snoc in V. apply Forall_app in D. destruct D as (D & C).
    inversion C as [ | ? ? C' _ ]; subst x l. assert (Q : n / 10 = dval t) by (symmetry; apply (Z.div_unique n 10 _ (c - 48)); lia).
    assert (R : c - 48 = n mod 10) by (apply (Z.mod_unique n 10 (dval t)); lia).
    split; [ lia | ]. split; [ exact Q | ]. split; [ exact C' | ]. intro T. rewrite Q.
    assert (Z1 : hd 0 t <> 48).
    { destruct t as [ | a t ]; [ contradiction T; reflexivity | ]. cbn [app hd] in Z0 |- *. intro E. specialize (Z0 E). inversion Z0 as [ [ E1 E2 ] ].
      destruct t; discriminate E2. }
    assert (DT : decimal (dval t) t) by (split; [ reflexivity | ]; split; [ exact D | ]; split; [ exact T | ]; intro E; contradiction).
    split; [ exact DT | ]. apply (decimal_pos _ t DT). intro E. apply Z1. rewrite E. reflexivity. }
  induction t as [ | c t IH ] using rev_ind; intros n t' H H'; [ destruct H as (_ & _ & N & _); contradiction N; reflexivity | ].
  destruct t' as [ | c' t' _ ] using rev_ind; [ destruct H' as (_ & _ & N & _); contradiction N; reflexivity | ].
  destruct (S _ _ _ H) as (E1 & Q1 & _ & G1). destruct (S _ _ _ H') as (E2 & Q2 & _ & G2). rewrite E1, E2. f_equal.
  destruct t as [ | a t ].
  - destruct t' as [ | a' t' ]; [ reflexivity | ]. destruct (G2 ltac:(discriminate)) as (_ & P). rewrite Q1 in P. cbn in P. lia.
  - destruct t' as [ | a' t' ]; [ destruct (G1 ltac:(discriminate)) as (_ & P); rewrite Q2 in P; cbn in P; lia | ].
    apply (IH (n / 10)); [ apply G1; discriminate | apply G2; discriminate ].
Qed.
Definition usize (n : Z) : Prop := 0 <= n < 2 ^ 64.
Lemma show_ok : forall n, usize n -> decimal n (show_usize n).
Proof.
  intros n H. unfold show_usize. destruct (dec_loop_ok 20 n []) as (t & E & D); [ lia | unfold usize in H; lia | ].
  rewrite E, app_nil_r. exact D.
Qed.
Theorem show_iff : forall n t, 0 <= n < 2 ^ 64 -> (show_usize n = t <-> decimal n t).
Proof. intros n t H. split; [ intros <-; apply show_ok; exact H | intro D; exact (decimal_fun _ n _ (show_ok n H) D) ]. Qed.
Lemma show_inj : forall n m, usize n -> usize m -> show_usize n = show_usize m -> n = m.
Proof. intros n m Hn Hm E. destruct (show_ok n Hn) as (V & _). destruct (show_ok m Hm) as (V' & _). rewrite V, V', E. reflexivity. Qed.

(* errors *)
Theorem display_text : forall e t, fits e -> (error_display e = t <->
  match e with
  | DecodeError => t = codes "DecodeErrro"
  | DecodePubkeyError => t = codes "DecodePubkeyError"
  | DecodeSignatureError => t = codes "DecodeSignatureError"
  | InvalidLengthError => t = codes "InvalidLengthError"
  | InvalidPrivKeyLengthErrro n => exists d, decimal n d /\ t = codes "Invalid PrivateKey Length, expected: 57 bytes, got: " ++ d ++ codes " bytes"
  | InvalidPubkeyLengthError => t = codes "InvalidPubkeyLengthError"
  | InvalidSignatureLengthError => t = codes "InvalidSignatureLengthError"
  | InvalidSignatureError => t = codes "InvalidSignatureError"
  end).
Proof.
  intros e t F. destruct e; cbn [error_display]; rewrite ?lit_codes; try (split; intro H; symmetry; exact H).
  split.
  - intros <-. exists (show_usize len). split; [ apply show_ok; exact F | reflexivity ].
  - intros (d & D & ->). apply show_iff in D; [ rewrite D; reflexivity | exact F ].
Qed.
Theorem display_inj : forall e e', fits e -> fits e' -> error_display e = error_display e' -> e = e'.
Proof.
  intros e e' F F' E. destruct e; destruct e'; try reflexivity;
    try (apply (f_equal (fun l => (nth 6 l 0, nth 7 l 0, nth 8 l 0, nth 16 l 0))) in E; vm_compute in E; discriminate E).
  unfold error_display in E. apply app_inv_head, app_inv_tail in E. f_equal. apply show_inj; assumption.
Qed.
Theorem debug_inj : forall e e', fits e -> fits e' -> error_debug e = error_debug e' -> e = e'.
Proof.
  intros e e' F F' E. destruct e; destruct e'; try reflexivity;
    try (apply (f_equal (fun l => (nth 6 l 0, nth 7 l 0, nth 8 l 0, nth 16 l 0))) in E; vm_compute in E; discriminate E).
  unfold error_debug in E. apply app_inv_head, app_inv_tail in E. f_equal. apply show_inj; assumption.
Qed.
(* the message of every variant without data is the name of the variant: not so *)
Theorem display_name_refuted : error_display DecodeError <> error_debug DecodeError.
Proof. discriminate. Qed.

(* keys *)
Lemma byte_usize : forall x, byte x -> usize x.
Proof. unfold byte, usize. lia. Qed.
Lemma items_listed : forall l, bytes l -> listed decimal l (debug_items l).
Proof.
  induction l as [ | x l IH ]; intro B; [ reflexivity | ]. inversion B; subst. destruct l as [ | y l ].
  - cbn [listed debug_items]. apply show_ok, byte_usize. assumption.
  - cbn [listed]. exists (show_usize x), (debug_items (y :: l)). split; [ apply show_ok, byte_usize; assumption | ].
    split; [ apply IH; assumption | ]. rewrite <- lit_codes. reflexivity.
Qed.
Lemma listed_fun : forall l t t', listed decimal l t -> listed decimal l t' -> t = t'.
Proof.
  induction l as [ | x l IH ]; intros t t' H H'; [ cbn in H, H'; congruence | ]. destruct l as [ | y l ].
  - cbn in H, H'. exact (decimal_fun _ _ _ H H').
  - cbn [listed] in H, H'. destruct H as (a & b & D & L & ->). destruct H' as (a' & b' & D' & L' & ->).
    rewrite (decimal_fun _ _ _ D D'), (IH _ _ L L'). reflexivity.
Qed.
Lemma split_digits : forall a b s s' x y, digits a -> digits b -> ~ 48 <= s <= 57 -> ~ 48 <= s' <= 57 ->
  a ++ s :: x = b ++ s' :: y -> a = b /\ s = s' /\ x = y.
Proof.
  induction a as [ | c a IH ]; intros [ | c' b ] s s' x y A B S S' E; cbn [app] in E; inversion E as [ [ E1 E2 ] ]; subst.
  - auto.
  - inversion B; subst. contradiction.
  - inversion A; subst. contradiction.
  - inversion A; inversion B; subst. destruct (IH b s s' x y) as (-> & -> & ->); auto.
Qed.
Lemma items_inj : forall l l' x y, bytes l -> bytes l' -> debug_items l ++ 93 :: x = debug_items l' ++ 93 :: y -> l = l' /\ x = y.
Proof.
  assert (D : forall n, byte n -> digits (show_usize n)) by (intros n H; apply byte_usize, show_ok in H; apply H).
  assert (C : forall n, byte n -> exists c r, show_usize n = c :: r /\ 48 <= c <= 57).
  { intros n H. pose proof (D n H) as Dn. apply byte_usize, show_ok in H. destruct H as (_ & _ & N & _).
    destruct (show_usize n) as [ | c r ]; [ contradiction N; reflexivity | ]. exists c, r. inversion Dn; auto. }
  induction l as [ | a l IH ]; intros l' x y B B' E.
  - destruct l' as [ | a' l' ]; [ cbn [debug_items app] in E; inversion E; auto | ]. exfalso. inversion B'; subst.
    destruct (C a' ltac:(assumption)) as (c & r & Ec & Hc). destruct l'; cbn [debug_items app] in E; rewrite Ec in E; inversion E; lia.
  - inversion B as [ | ? ? Ba Bl ]; subst. destruct l' as [ | a' l' ].
    { exfalso. destruct (C a Ba) as (c & r & Ec & Hc). destruct l; cbn [debug_items app] in E; rewrite Ec in E; inversion E; lia. }
    inversion B' as [ | ? ? Ba' Bl' ]; subst.
    assert (T : exists s z, debug_items (a :: l) ++ 93 :: x = show_usize a ++ s :: z /\
      ((s = 93 /\ l = [] /\ z = x) \/ (s = 44 /\ l <> [] /\ z = 32 :: debug_items l ++ 93 :: x))).
    { destruct l; [ exists 93, x; auto | ]. exists 44, (32 :: debug_items (z :: l) ++ 93 :: x). split; [ | right; split; [ reflexivity | split; [ discriminate | reflexivity ] ] ].
      change (debug_items (a :: z :: l)) with (show_usize a ++ lit ", " ++ debug_items (z :: l)). rewrite <- !app_assoc. reflexivity. }
    assert (T' : exists s z, debug_items (a' :: l') ++ 93 :: y = show_usize a' ++ s :: z /\
      ((s = 93 /\ l' = [] /\ z = y) \/ (s = 44 /\ l' <> [] /\ z = 32 :: debug_items l' ++ 93 :: y))).
    { destruct l'; [ exists 93, y; auto | ]. exists 44, (32 :: debug_items (z :: l') ++ 93 :: y). split; [ | right; split; [ reflexivity | split; [ discriminate | reflexivity ] ] ].
      change (debug_items (a' :: z :: l')) with (show_usize a' ++ lit ", " ++ debug_items (z :: l')). rewrite <- !app_assoc. reflexivity. }
    destruct T as (s & z & Es & Hs). destruct T' as (s' & z' & Es' & Hs'). rewrite Es, Es' in E.
    assert (Ns : ~ 48 <= s <= 57) by (destruct Hs as [ (-> & _) | (-> & _) ]; lia).
    assert (Ns' : ~ 48 <= s' <= 57) by (destruct Hs' as [ (-> & _) | (-> & _) ]; lia).
    destruct (split_digits _ _ _ _ _ _ (D a Ba) (D a' Ba') Ns Ns' E) as (Ea & E1 & E2). apply show_inj in Ea; [ | apply byte_usize; assumption .. ].
    destruct Hs as [ (-> & -> & ->) | (-> & _ & ->) ]; destruct Hs' as [ (-> & -> & ->) | (-> & _ & ->) ]; try discriminate E1.
    + subst. auto.
    + injection E2 as E2. destruct (IH l' x y Bl Bl' E2) as (-> & ->). subst. auto.
Qed.
Lemma array_inj : forall l l' x y, bytes l -> bytes l' -> debug_array l ++ x = debug_array l' ++ y -> l = l' /\ x = y.
Proof.
  intros l l' x y B B' E. unfold debug_array in E. cbn [lit app] in E. injection E as E. rewrite <- !app_assoc in E. cbn [app] in E.
  exact (items_inj _ _ _ _ B B' E).
Qed.
Theorem secret_debug_text : forall k t, bytes k ->
  (secret_debug (SecretKey k) = t <-> exists items, listed decimal k items /\ t = codes "SecretKey { key: [" ++ items ++ codes "] }").
Proof.
  intros k t B. assert (X : secret_debug (SecretKey k) = codes "SecretKey { key: [" ++ debug_items k ++ codes "] }").
  { unfold secret_debug, debug_array. cbn [sk_key]. rewrite <- !lit_codes, <- !app_assoc. reflexivity. }
  rewrite X. split.
  - intros <-. exists (debug_items k). split; [ apply items_listed; exact B | reflexivity ].
  - intros (i & L & ->). rewrite (listed_fun _ _ _ L (items_listed k B)). reflexivity.
Qed.
Theorem secret_debug_reveals : forall k k', bytes k -> bytes k' -> secret_debug (SecretKey k) = secret_debug (SecretKey k') -> k = k'.
Proof.
  intros k k' B B' E. unfold secret_debug in E. apply app_inv_head in E. cbn [sk_key] in E. apply (array_inj _ _ _ _ B B' E).
Qed.
Theorem signing_debug_reveals : forall xof k k' sk sk', keypair xof k sk -> keypair xof k' sk' -> signing_debug sk = signing_debug sk' -> k = k'.
Proof.
  intros xof k k' sk sk' (_ & B & T & _) (_ & B' & T' & _) E. unfold signing_debug, secret_debug in E. apply app_inv_head in E.
  rewrite <- !app_assoc in E. apply app_inv_head in E. unfold to_bytes in T, T'. rewrite T, T' in E. apply (array_inj _ _ _ _ B B' E).
Qed.
Lemma error_case : fits (InvalidPrivKeyLengthErrro 1203) /\ decimal 1203 (codes "1203") /\ show_usize 1203 = codes "1203" /\ ~ decimal 7 (codes "07").
Proof.
  split; [ split; [ discriminate | reflexivity ] | ]. assert (E : show_usize 1203 = codes "1203") by reflexivity.
  split; [ rewrite <- E; apply show_ok; split; [ discriminate | reflexivity ] | ]. split; [ exact E | ].
  intros (_ & _ & _ & H). specialize (H eq_refl). discriminate H.
Qed.
