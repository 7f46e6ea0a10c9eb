(* Counting argument behind rewinding (forking): vectors of equally likely answers, a test W which names a position
   whenever it succeeds, and the pairs of vectors which agree before that position and succeed there twice. *)
From Coq Require Import ZArith List Bool Lia Psatz.
From Verif Require Import SpecUniform SpecForger Uniform.
Import ListNotations.
Open Scope Z_scope.

Section Sums.
Context {A : Type}.
Fixpoint lsum (f : A -> Z) (l : list A) : Z := match l with [] => 0 | x :: t => f x + lsum f t end.
Lemma lsum_ext : forall f g l, (forall x, In x l -> f x = g x) -> lsum f l = lsum g l.
Proof. intros f g. induction l as [ | x t IH ]; intro H; [ reflexivity | ]. cbn [lsum]. rewrite IH, (H x) by (intros; try apply H; cbn [In]; auto). reflexivity. Qed.
Lemma lsum_le : forall f g l, (forall x, In x l -> f x <= g x) -> lsum f l <= lsum g l.
Proof.
  intros f g. induction l as [ | x t IH ]; intro H; [ reflexivity | ]. cbn [lsum]. pose proof (H x (or_introl eq_refl)). pose proof (IH (fun y Y => H y (or_intror Y))). lia.
Qed.
Lemma lsum_add : forall f g l, lsum (fun x => f x + g x) l = lsum f l + lsum g l.
Proof. intros f g. induction l as [ | x t IH ]; [ reflexivity | ]. cbn [lsum]. rewrite IH. ring. Qed.
Lemma lsum_mul : forall c f l, lsum (fun x => c * f x) l = c * lsum f l.
Proof. intros c f. induction l as [ | x t IH ]; [ cbn [lsum]; ring | ]. cbn [lsum]. rewrite IH. ring. Qed.
Lemma lsum_const : forall c l, lsum (fun _ => c) l = Z.of_nat (length l) * c.
Proof. intros c. induction l as [ | x t IH ]; [ reflexivity | ]. cbn [lsum]. rewrite IH. cbn [length]. rewrite Nat2Z.inj_succ. ring. Qed.
Lemma lsum_app : forall f l l', lsum f (l ++ l') = lsum f l + lsum f l'.
Proof. intros f. induction l as [ | x t IH ]; intro l'; [ reflexivity | ]. cbn [lsum app]. rewrite IH. ring. Qed.
Lemma lsum_tally : forall f l, tally f l = lsum (fun x => if f x then 1 else 0) l.
Proof. intros f. induction l as [ | x t IH ]; [ reflexivity | ]. cbn [lsum tally]. rewrite IH. reflexivity. Qed.
Lemma lsum_nonneg : forall f l, (forall x, In x l -> 0 <= f x) -> 0 <= lsum f l.
Proof. intros f l H. pose proof (lsum_le (fun _ => 0) f l H) as K. rewrite lsum_const in K. lia. Qed.
(* Cauchy and Schwarz *)
Lemma cauchy : forall f l, lsum f l * lsum f l <= Z.of_nat (length l) * lsum (fun x => f x * f x) l.
Proof.
  intros f. induction l as [ | x t IH ]; [ reflexivity | ]. cbn [lsum length]. rewrite Nat2Z.inj_succ.
  set (n := Z.of_nat (length t)) in *. set (s := lsum f t) in *. set (q := lsum (fun x => f x * f x) t) in *. set (a := f x).
  assert (K : 2 * a * s <= n * (a * a) + q).
  { unfold n, s, q. clear. induction t as [ | y t IH ]; [ cbn [lsum length]; lia | ]. cbn [lsum length]. rewrite Nat2Z.inj_succ. pose proof (Z.square_nonneg (a - f y)). nia. }
  nia.
Qed.
End Sums.
Lemma lsum_map : forall (A B : Type) (g : A -> B) f l, lsum f (map g l) = lsum (fun x => f (g x)) l.
Proof. intros A B g f. induction l as [ | x t IH ]; [ reflexivity | ]. cbn [lsum map]. rewrite IH. reflexivity. Qed.
Lemma lsum_flat : forall (A B : Type) (g : A -> list B) f l, lsum f (flat_map g l) = lsum (fun x => lsum f (g x)) l.
Proof. intros A B g f. induction l as [ | x t IH ]; [ reflexivity | ]. cbn [lsum flat_map]. rewrite lsum_app, IH. reflexivity. Qed.
Lemma lsum_swap : forall (A B : Type) (f : A -> B -> Z) l l', lsum (fun x => lsum (f x) l') l = lsum (fun y => lsum (fun x => f x y) l) l'.
Proof.
  intros A B f l l'. induction l as [ | x t IH ]; [ cbn [lsum]; rewrite lsum_const; ring | ]. cbn [lsum]. rewrite IH, <- lsum_add. reflexivity.
Qed.
Lemma lsum_prod : forall (A B : Type) (f : A * B -> Z) l l', lsum f (list_prod l l') = lsum (fun x => lsum (fun y => f (x, y)) l') l.
Proof. intros A B f l l'. induction l as [ | x t IH ]; [ reflexivity | ]. cbn [lsum list_prod]. rewrite lsum_app, lsum_map, IH. reflexivity. Qed.

Section Vectors.
Context {D : Type}.
Variable ds : list D.
Local Notation vectors := (SpecForger.vectors ds).
Let N : Z := Z.of_nat (length ds).
Lemma vectors_length : forall m h, In h (vectors m) -> length h = m.
Proof.
  induction m as [ | m IH ]; intros h H; cbn [SpecForger.vectors] in H; [ destruct H as [ <- | [] ]; reflexivity | ].
  apply in_flat_map in H as (d & _ & H). apply in_map_iff in H as (t & <- & H). cbn [length]. rewrite (IH t H). reflexivity.
Qed.
Lemma vectors_in : forall m h d, In h (vectors m) -> In d h -> In d ds.
Proof.
  induction m as [ | m IH ]; intros h d H I; cbn [SpecForger.vectors] in H; [ destruct H as [ <- | [] ]; destruct I | ].
  apply in_flat_map in H as (e & E & H). apply in_map_iff in H as (t & <- & H). destruct I as [ <- | I ]; [ exact E | exact (IH t d H I) ].
Qed.
Lemma vectors_split : forall f j r, lsum f (vectors (j + r)) = lsum (fun u => lsum (fun v => f (u ++ v)) (vectors r)) (vectors j).
Proof.
  intros f j r. revert f. induction j as [ | j IH ]; intro f; [ cbn [Nat.add SpecForger.vectors lsum app]; rewrite Z.add_0_r; reflexivity | ].
  cbn [Nat.add SpecForger.vectors]. rewrite !lsum_flat. apply lsum_ext. intros d _. rewrite !lsum_map, IH. reflexivity.
Qed.
Lemma vectors_count : forall m, Z.of_nat (length (vectors m)) = N ^ Z.of_nat m.
Proof.
  assert (K : forall l : list (list D), Z.of_nat (length l) = lsum (fun _ => 1) l) by (intro l; rewrite lsum_const; ring).
  induction m as [ | m IH ]; [ reflexivity | ]. rewrite K. cbn [SpecForger.vectors]. rewrite lsum_flat.
  rewrite (lsum_ext _ (fun _ => N ^ Z.of_nat m)); [ | intros d _; rewrite lsum_map, <- K; exact IH ].
  rewrite lsum_const, Nat2Z.inj_succ, Z.pow_succ_r by lia. reflexivity.
Qed.
Lemma vectors_app : forall j r h, In h (vectors (j + r)) -> In (firstn j h) (vectors j) /\ In (skipn j h) (vectors r).
Proof.
  induction j as [ | j IH ]; intros r h H; [ split; [ left; reflexivity | exact H ] | ]. cbn [Nat.add SpecForger.vectors] in H.
  apply in_flat_map in H as (d & E & H). apply in_map_iff in H as (t & <- & H). destruct (IH r t H) as (H1 & H2). cbn [firstn skipn]. split; [ | exact H2 ].
  cbn [SpecForger.vectors]. apply in_flat_map. exists d. split; [ exact E | ]. apply in_map. exact H1.
Qed.
Lemma vectors_join : forall j r u v, In u (vectors j) -> In v (vectors r) -> In (u ++ v) (vectors (j + r)).
Proof.
  induction j as [ | j IH ]; intros r u v U V; cbn [SpecForger.vectors] in U; [ destruct U as [ <- | [] ]; exact V | ].
  apply in_flat_map in U as (d & E & U). apply in_map_iff in U as (t & <- & U). cbn [Nat.add SpecForger.vectors app]. apply in_flat_map. exists d. split; [ exact E | ]. apply in_map. exact (IH r t v U V).
Qed.

Variable m : nat.
Variable W : list D -> option nat.
Hypothesis W_small : forall h j, In h (vectors m) -> W h = Some j -> (j < m)%nat.
Variable color : D -> Z.
Variable kappa : Z.
Hypothesis few : forall s, lsum (fun d => if color d =? s then 1 else 0) ds <= kappa.
Variable d0 : D.
Definition fork (j : nat) (h h' : list D) : list D := firstn j h ++ skipn j h'.
Definition at_ (j : nat) (h : list D) : Z := match W h with Some i => if Nat.eqb i j then 1 else 0 | None => 0 end.
Definition both (j : nat) (h h' : list D) : Z := at_ j h * at_ j (fork j h h').
Lemma at_01 : forall j h, 0 <= at_ j h <= 1.
Proof. intros j h. unfold at_. destruct (W h) as [ i | ]; [ destruct (Nat.eqb i j) | ]; lia. Qed.

Lemma square_le : forall j, (j <= m)%nat ->
  lsum (at_ j) (vectors m) * lsum (at_ j) (vectors m) <= lsum (fun h => lsum (both j h) (vectors m)) (vectors m).
Proof.
  intros j L. replace m with (j + (m - j))%nat by lia. set (r := (m - j)%nat).
  rewrite (vectors_split (at_ j)). set (a := fun u => lsum (fun v => at_ j (u ++ v)) (vectors r)).
  assert (E : lsum (fun h => lsum (both j h) (vectors (j + r))) (vectors (j + r)) = Z.of_nat (length (vectors j)) * lsum (fun u => a u * a u) (vectors j)).
  { rewrite vectors_split. rewrite <- lsum_mul. apply lsum_ext. intros u U. pose proof (vectors_length _ _ U) as LU.
    rewrite (lsum_ext _ (fun v => Z.of_nat (length (vectors j)) * a u * at_ j (u ++ v))).
    - rewrite lsum_mul. unfold a at 2. ring.
    - intros v V. rewrite vectors_split. rewrite (lsum_ext _ (fun _ => at_ j (u ++ v) * a u)); [ rewrite lsum_const; ring | ].
      intros u' U'. pose proof (vectors_length _ _ U') as LU'. unfold a. rewrite <- lsum_mul. apply lsum_ext. intros v' V'. unfold both, fork.
      rewrite firstn_app, LU, Nat.sub_diag, firstn_O, app_nil_r, firstn_all2 by lia.
      rewrite skipn_app, LU', Nat.sub_diag, skipn_all2 by lia. reflexivity. }
  rewrite E. apply cauchy.
Qed.
(* one coordinate of the second vector of a given color *)
Lemma collide : forall j s, (j < m)%nat -> lsum (fun h' => if color (nth j h' d0) =? s then 1 else 0) (vectors m) <= N ^ (Z.of_nat m - 1) * kappa.
Proof.
  intros j s L. replace m with (j + S (m - j - 1))%nat at 1 by lia. set (r := (m - j - 1)%nat). rewrite vectors_split.
  assert (E : forall u, In u (vectors j) -> lsum (fun v => if color (nth j (u ++ v) d0) =? s then 1 else 0) (vectors (S r)) <= N ^ Z.of_nat r * kappa).
  { intros u U. pose proof (vectors_length _ _ U) as LU. cbn [SpecForger.vectors]. rewrite lsum_flat.
    rewrite (lsum_ext _ (fun d => N ^ Z.of_nat r * (if color d =? s then 1 else 0))).
    - rewrite lsum_mul. apply Z.mul_le_mono_nonneg_l; [ apply Z.pow_nonneg; unfold N; lia | apply few ].
    - intros d _. rewrite lsum_map. rewrite (lsum_ext _ (fun _ => if color d =? s then 1 else 0)); [ rewrite lsum_const, vectors_count; reflexivity | ].
      intros v _. rewrite app_nth2, LU, Nat.sub_diag by lia. reflexivity. }
  eapply Z.le_trans; [ exact (lsum_le _ _ _ E) | ]. rewrite lsum_const, vectors_count.
  replace (Z.of_nat m - 1) with (Z.of_nat j + Z.of_nat r) by (unfold r; lia). rewrite Z.pow_add_r by lia. apply Z.eq_le_incl. ring.
Qed.
Definition wins : Z := lsum (fun h => match W h with Some _ => 1 | None => 0 end) (vectors m).
Lemma wins_split : wins = lsum (fun j => lsum (at_ j) (vectors m)) (seq 0 m).
Proof.
  unfold wins. rewrite lsum_swap. apply lsum_ext. intros h H. unfold at_. destruct (W h) as [ i | ] eqn:E; [ | rewrite lsum_const; ring ].
  pose proof (W_small h i H E) as L. clear E H.
  assert (K : forall n b, lsum (fun y => if Nat.eqb i y then 1 else 0) (seq b n) = if (Nat.leb b i && Nat.ltb i (b + n))%bool then 1 else 0).
  { induction n as [ | n IH ]; intro b; cbn [seq lsum].
    - destruct (Nat.leb_spec b i); destruct (Nat.ltb_spec i (b + 0)); try reflexivity. lia.
    - rewrite IH. destruct (Nat.eqb_spec i b); destruct (Nat.leb_spec (S b) i); destruct (Nat.leb_spec b i); destruct (Nat.ltb_spec i (S b + n)); destruct (Nat.ltb_spec i (b + S n)); cbn [andb]; lia. }
  rewrite K. replace (Nat.leb 0 i) with true by reflexivity. replace (Nat.ltb i (0 + m)) with true by (symmetry; apply Nat.ltb_lt; lia). reflexivity.
Qed.
Lemma at_sum_le : forall f : nat -> Z, (forall j, 0 <= f j) -> forall h, lsum (fun j => at_ j h * f j) (seq 0 m) <= match W h with Some i => f i | None => 0 end.
Proof.
  intros f P h. unfold at_. destruct (W h) as [ i | ]; [ | rewrite (lsum_ext _ (fun _ => 0)), lsum_const by (intros; apply Z.mul_0_l); lia ].
  assert (K : forall n b, lsum (fun y => (if Nat.eqb i y then 1 else 0) * f y) (seq b n) = if (Nat.leb b i && Nat.ltb i (b + n))%bool then f i else 0).
  { induction n as [ | n IH ]; intro b; cbn [seq lsum].
    - destruct (Nat.leb_spec b i); destruct (Nat.ltb_spec i (b + 0)); try reflexivity. lia.
    - rewrite IH. destruct (Nat.eqb_spec i b); destruct (Nat.leb_spec (S b) i); destruct (Nat.leb_spec b i); destruct (Nat.ltb_spec i (S b + n)); destruct (Nat.ltb_spec i (b + S n)); cbn [andb]; subst; lia. }
  rewrite K. pose proof (P i). destruct (_ && _)%bool; lia.
Qed.
Variable E : list D -> list D -> bool.
Hypothesis extracts : forall h h' j, In h (vectors m) -> In h' (vectors m) -> W h = Some j -> W (fork j h h') = Some j ->
  color (nth j h d0) <> color (nth j h' d0) -> E h h' = true.
Theorem forking : wins * wins <= Z.of_nat m * (tally (fun p => E (fst p) (snd p)) (list_prod (vectors m) (vectors m)) + wins * (N ^ (Z.of_nat m - 1) * kappa)).
Proof.
  rewrite wins_split at 1 2. eapply Z.le_trans; [ apply cauchy | ]. rewrite seq_length. apply Z.mul_le_mono_nonneg_l; [ lia | ].
  eapply Z.le_trans; [ apply lsum_le; intros j J; apply in_seq in J; apply square_le; lia | ].
  (* a pair succeeds at j, or collides there *)
  set (K := N ^ (Z.of_nat m - 1) * kappa).
  assert (S1 : forall j h, In j (seq 0 m) -> In h (vectors m) -> lsum (both j h) (vectors m) <= at_ j h * (lsum (fun h' => if E h h' then 1 else 0) (vectors m) + K)).
  { intros j h J H. apply in_seq in J. unfold both. rewrite lsum_mul. unfold at_ at 1 3. destruct (W h) as [ i | ] eqn:Wh; [ | lia ]. destruct (Nat.eqb_spec i j) as [ <- | ]; [ | lia ].
    apply Z.mul_le_mono_nonneg_l; [ lia | ]. eapply Z.le_trans; [ | apply Z.add_le_mono_l; exact (collide i (color (nth i h d0)) ltac:(lia)) ].
    rewrite <- lsum_add. apply lsum_le. intros h' H'. unfold at_. destruct (W (fork i h h')) as [ i' | ] eqn:Wf; [ | destruct (E h h'); destruct (_ =? _); lia ].
    destruct (Nat.eqb_spec i' i) as [ -> | ]; [ | destruct (E h h'); destruct (_ =? _); lia ].
    destruct (Z.eqb_spec (color (nth i h' d0)) (color (nth i h d0))) as [ C | C ]; [ destruct (E h h'); lia | ].
    rewrite (extracts h h' i H H' Wh Wf) by congruence. lia. }
  eapply Z.le_trans; [ apply lsum_le; intros j J; apply lsum_le; intros h H; exact (S1 j h J H) | ].
  rewrite lsum_swap. rewrite lsum_tally, lsum_prod. cbn [fst snd]. unfold wins.
  replace (lsum (fun h => match W h with Some _ => 1 | None => 0 end) (vectors m) * K) with (lsum (fun h => match W h with Some _ => K | None => 0 end) (vectors m)).
  2:{ rewrite (Z.mul_comm _ K), <- lsum_mul. apply lsum_ext. intros h _. destruct (W h); ring. }
  rewrite <- lsum_add. apply lsum_le. intros h H.
  assert (K0 : 0 <= K).
  { unfold K. apply Z.mul_nonneg_nonneg; [ apply Z.pow_nonneg; unfold N; lia | ]. eapply Z.le_trans; [ | exact (few 0) ]. apply lsum_nonneg. intros d _. destruct (_ =? _); lia. }
  assert (T0 : 0 <= lsum (fun h' => if E h h' then 1 else 0) (vectors m)) by (apply lsum_nonneg; intros x _; destruct (E h x); lia).
  eapply Z.le_trans; [ apply (at_sum_le (fun _ => lsum (fun h' => if E h h' then 1 else 0) (vectors m) + K)); intros; lia | ]. destruct (W h); lia.
Qed.
End Vectors.
