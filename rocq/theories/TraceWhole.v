(* The whole trace of signing and key derivation. *)
From Coq Require Import ZArith List Bool Lia.
From Verif Require Import SpecField SpecBytes SpecScalar SpecCurve SpecDecode SpecEd448 SpecTrace SpecEvents.
From Verif Require Import Base Constants32 ScalarModel Niels CombTable ExtendedPoint Eddsa Goldilocks Trace Bytes.
From Verif Require Import Ed448 TraceProofs.
Import ListNotations.
Open Scope Z_scope.

Definition hd {A : Type} (x : traced A) (l : list event) : Prop := match x with Some (t, _) => map hide t = map hide l | None => True end.
Lemma hd_bind : forall (A B : Type) (x : traced A) (f : A -> traced B) l l', hd x l -> (forall a, value x = Some a -> hd (f a) l') -> hd (tbind x f) (l ++ l').
Proof.
  intros A B [ (t, a) | ] f l l' H K; [ | exact I ]. specialize (K a eq_refl). unfold hd in *. cbn [tbind]. destruct (f a) as [ (u, b) | ]; [ | exact I ].
  rewrite !map_app, H, K. reflexivity.
Qed.
Lemma hd_quiet : forall (A : Type) (o : option A), hd (quiet o) [].
Proof. intros A [ a | ]; [ reflexivity | exact I ]. Qed.
Lemma hd_q : forall (A B : Type) (o : option A) (f : A -> traced B) l, (forall a, o = Some a -> hd (f a) l) -> hd (tbind (quiet o) f) l.
Proof. intros A B o f l H. change l with ([] ++ l). apply hd_bind; [ apply hd_quiet | ]. intros a E. apply H. destruct o; exact E. Qed.
Lemma hd_shp : forall (A : Type) (P : A -> A -> Prop) x y l, shp P x y -> match y with Some (t, _) => map hide t = map hide l | None => False end -> hd x l.
Proof. intros A P [ (t, a) | ] [ (t', a') | ] l S E; try exact I; [ | destruct E ]. destruct S as (S & _). unfold hd. rewrite S. exact E. Qed.
Lemma long_57 : forall b, length b = 57%nat -> hd (t_decode_long b) (long_events 1).
Proof. intros b L. apply (hd_shp _ any _ (t_decode_long (repeat 0 57))); [ apply decode_long_s; rewrite L; reflexivity | ]. vm_compute. reflexivity. Qed.
Lemma long_114 : forall b, length b = 114%nat -> hd (t_decode_long b) (long_events 2).
Proof. intros b L. apply (hd_shp _ any _ (t_decode_long (repeat 0 114))); [ apply decode_long_s; rewrite L; reflexivity | ]. vm_compute. reflexivity. Qed.
Lemma hd_e : forall (B : Type) e (f : unit -> traced B) e' l, hide e = hide e' -> hd (f tt) l -> hd (tbind (emit e) f) (e' :: l).
Proof. intros B e f e' l E H. change (e' :: l) with ([e'] ++ l). apply hd_bind; [ unfold hd, emit; cbn [map]; rewrite E; reflexivity | ]. intros [] _. exact H. Qed.
Fixpoint teeth (n : nat) (k i j : Z) : list event := match n with O => [] | S m => tooth_events (i + 18 * (k + j * 5)) ++ teeth m (k + 1) i j end.
Fixpoint combs (entry : Z -> Z -> Z) (n : nat) (j i : Z) : list event :=
  match n with O => [] | S m => teeth 5 0 i j ++ Lookup (entry i j) :: Branch 597 (negb (i =? 17) || negb (j =? 0)) :: combs entry m (j + 1) i end.
Fixpoint rounds (entry : Z -> Z -> Z) (n : nat) : list event :=
  match n with O => [] | S m => Branch 577 (negb (Z.of_nat m =? 17)) :: combs entry 5 0 (Z.of_nat m) ++ rounds entry m end.
Lemma teeth_hd : forall n k s i j tab, hd (t_comb_tab n k s i j tab) (teeth n k i j).
Proof.
  induction n as [ | n IH ]; intros k s i j tab; cbn [t_comb_tab teeth]; [ apply hd_quiet | ]. cbv zeta. unfold branch, tooth_events. change (DECAF_COMB_SPACING) with 18. change DECAF_COMB_TEETH with 5. change SCALAR_BITS with 446. change WORD_BITS with 32.
  destruct (i + 18 * (k + j * 5) <? 446); cbn [app].
  - apply hd_e; [ reflexivity | ]. change (Load 586 ((i + 18 * (k + j * 5)) / 32) :: teeth n (k + 1) i j) with ([Load 586 ((i + 18 * (k + j * 5)) / 32)] ++ teeth n (k + 1) i j).
    apply hd_bind; [ | intros x _; apply IH ]. unfold load. apply hd_e; [ reflexivity | ]. apply hd_q. intros v _. apply hd_quiet.
  - apply hd_e; [ reflexivity | ]. apply hd_q. intros x _. apply IH.
Qed.
Lemma combs_hd : forall entry n j s i p, hd (t_comb_inner n j s i p) (combs entry n j i).
Proof.
  intro entry. induction n as [ | n IH ]; intros j s i p; cbn [t_comb_inner combs]; [ apply hd_quiet | ]. apply hd_bind; [ apply teeth_hd | ]. intros tab _. cbv zeta. unfold lookup, branch.
  apply hd_e; [ reflexivity | ]. apply hd_q. intros np _. apply hd_q. intros np' _. apply hd_e; [ reflexivity | ].
  destruct (negb (i =? DECAF_COMB_SPACING - 1) || negb (j =? 0)); apply hd_q; intros x _; apply IH.
Qed.
Lemma rounds_hd : forall entry n s p, hd (t_comb_outer n s p) (rounds entry n).
Proof.
  intro entry. induction n as [ | n IH ]; intros s p; cbn [t_comb_outer rounds]; [ apply hd_quiet | ]. cbv zeta. unfold branch. apply hd_e; [ reflexivity | ].
  destruct (negb (Z.of_nat n =? DECAF_COMB_SPACING - 1)); (apply hd_q; intros x _; apply hd_bind; [ apply combs_hd | ]; intros y _; apply IH).
Qed.
Lemma comb_hd : forall s entry, hd (t_precomputed_scalar_mul s) (comb_events entry).
Proof.
  intros s entry. assert (E : comb_events entry = rounds entry 18) by (vm_compute; reflexivity). rewrite E. unfold t_precomputed_scalar_mul. apply hd_q. intros x _. cbv zeta. apply rounds_hd.
Qed.
Lemma entries : forall entry, lookups (comb_events entry) = flat_map (fun i => map (entry i) [0; 1; 2; 3; 4]) (down 18).
Proof. intro entry. vm_compute. reflexivity. Qed.
Lemma multiply_lookups : forall s, lookups (multiply_events s) = table_addresses s.
Proof. intro s. unfold multiply_events. rewrite entries. unfold table_addresses. generalize (comb_number s). intro N. unfold comb_rounds, comb_round. reflexivity. Qed.
Lemma long_lookups : lookups (long_events 1) = [] /\ lookups (long_events 2) = [].
Proof. split; vm_compute; reflexivity. Qed.

Section Hash.
Variable xof : list Z -> nat -> list Z.
Hypothesis XOF : is_xof xof.
Lemma point_hd : forall k s, length k = 57%nat -> hd (t_point_by_secret k) (long_events 1 ++ multiply_events s).
Proof.
  intros k s L. unfold t_point_by_secret. apply hd_q. intros d E. apply clamp_len in E. apply hd_bind; [ apply long_57; congruence | ]. intros r _. cbv zeta. apply comb_hd.
Qed.
Lemma sha3_hd : forall x n, hd (t_sha3 xof x n) [Hash (length x) n] /\ forall a, value (t_sha3 xof x n) = Some a -> length a = n.
Proof. intros x n. split; [ reflexivity | ]. intros a E. apply inj_some in E. subst a. apply (xof_len xof XOF). Qed.
Lemma dom_hd : forall x n, hd (t_hash_with_dom xof x n) [Hash (10 + length x) n] /\ forall a, value (t_hash_with_dom xof x n) = Some a -> length a = n.
Proof. intros x n. split; [ reflexivity | ]. intros a E. apply inj_some in E. subst a. apply (xof_len xof XOF). Qed.
Lemma tail_hd : forall sec seed p m r, length seed = 57%nat -> hd (t_sign_tail xof sec seed p m)
  ([Hash (10 + 57 + length m) 114] ++ long_events 2 ++ multiply_events r ++ [Hash (10 + 57 + 57 + length m) 114] ++ long_events 2).
Proof.
  intros sec seed p m r L. unfold t_sign_tail. cbv zeta. destruct (dom_hd (seed ++ m) 114) as (D1 & D2).
  apply hd_bind; [ rewrite app_length, L in D1; exact D1 | ]. intros h Eh. apply hd_bind; [ apply long_114; exact (D2 h Eh) | ]. intros x _. apply hd_bind; [ apply comb_hd | ]. intros np _.
  apply hd_q. intros e E. apply encode_len in E. apply hd_q. intros f F. apply encode_len in F. destruct (dom_hd (e ++ f ++ m) 114) as (C1 & C2).
  apply hd_bind; [ rewrite !app_length, E, F in C1; exact C1 | ]. intros c Ec. rewrite <- (app_nil_r (long_events 2)). apply hd_bind; [ apply long_114; exact (C2 c Ec) | ]. intros y _.
  apply hd_q. intros z _. apply hd_q. intros u _. apply hd_quiet.
Qed.
Theorem sign_whole : forall key message, length key = 57%nat -> bytes key -> exists sig, ed448_sign xof key message = Some sig /\
  t_ed448_sign xof key message = Some (sign_events (negb (enc_sign key)) (key_scalar xof key) (key_nonce xof key message) (length message), sig).
Proof.
  intros k m L B. destruct (sign_lookups xof XOF k m L B) as (t & sig & E & ES & LK). exists sig. split; [ exact ES | ]. rewrite E. f_equal. f_equal.
  set (s := key_scalar xof k) in *. set (r := key_nonce xof k m) in *. apply same_trace.
  - assert (H : hd (t_ed448_sign xof k m) (sign_events (negb (enc_sign k)) s r (length m))); [ | rewrite E in H; exact H ].
    unfold t_ed448_sign. cbv beta delta [branch]. apply hd_q. intros b Eb. rewrite (enc_top k L B b Eb). unfold sign_events. apply hd_bind; [ reflexivity | ]. intros _ _.
    destruct (enc_sign k); cbn [negb].
    + rewrite app_nil_l. apply hd_q. intros d Ed. apply clamp_len in Ed. unfold t_sign_with_secret_and_nonce. apply hd_q. intros s1 E1. apply clamp_len in E1.
      apply hd_bind; [ apply long_57; congruence | ]. intros sec _. apply hd_bind; [ apply point_hd; congruence | ]. intros p _. apply tail_hd. congruence.
    + unfold t_sign_by_private. destruct (sha3_hd k 114) as (D1 & D2). apply hd_bind; [ rewrite L in D1; exact D1 | ]. intros h Eh. pose proof (D2 h Eh) as Lh.
      apply hd_q. intros c Ec. apply hd_q. intros sk Ek. apply slice_len in Ek. apply hd_bind; [ apply long_57; exact Ek | ]. intros sec _.
      apply hd_q. intros u Eu. apply slice_len in Eu. apply hd_bind; [ apply point_hd; exact Ek | ]. intros p _. apply tail_hd. exact Eu.
  - rewrite LK. destruct long_lookups as (L1 & L2). unfold sign_events. rewrite !lookups_app, !multiply_lookups, L1, L2. destruct (enc_sign k); cbn [negb app lookups flat_map]; rewrite ?app_nil_r; reflexivity.
Qed.
Theorem derive_whole : forall key, length key = 57%nat -> bytes key -> exists pub, ed448_derive_public xof key = Some pub /\
  t_ed448_derive_public xof key = Some (derive_events (negb (enc_sign key)) (key_scalar xof key), pub).
Proof.
  intros k L B. destruct (derive_lookups xof XOF k L B) as (t & pub & E & ES & LK). exists pub. split; [ exact ES | ]. rewrite E. f_equal. f_equal.
  set (s := key_scalar xof k) in *. apply same_trace.
  - assert (H : hd (t_ed448_derive_public xof k) (derive_events (negb (enc_sign k)) s)); [ | rewrite E in H; exact H ].
    assert (P : forall x, length x = 57%nat -> hd (t_secret_to_public x) (long_events 1 ++ multiply_events s)).
    { intros x Lx. unfold t_secret_to_public. rewrite <- (app_nil_r (long_events 1 ++ multiply_events s)). apply hd_bind; [ apply point_hd; exact Lx | ]. intros h _. apply hd_quiet. }
    unfold t_ed448_derive_public. cbv beta delta [branch]. apply hd_q. intros b Eb. rewrite (enc_top k L B b Eb). unfold derive_events. apply hd_bind; [ reflexivity | ]. intros _ _.
    destruct (enc_sign k); cbn [negb]; [ rewrite app_nil_l; apply P; exact L | ].
    unfold t_private_to_public, t_private_to_secret. destruct (sha3_hd k 57) as (D1 & D2).
    apply hd_bind; [ | ].
    + rewrite <- (app_nil_r [Hash 57 57]). apply hd_bind; [ rewrite L in D1; exact D1 | ]. intros h _. apply hd_q. intros c _. apply hd_quiet.
    + intros x Ex. apply P. unfold t_sha3, emit, tbind, quiet, value, sha3 in Ex. destruct (znth (xof k 57) 56) as [ c | ]; [ | discriminate Ex ]. destruct (zupd (xof k 57) 56 (Z.lor c 128)) as [ y | ] eqn:U; [ | discriminate Ex ].
      apply inj_some in Ex. subst x. apply zupd_len in U. rewrite U. apply (xof_len xof XOF).
  - rewrite LK. destruct long_lookups as (L1 & L2). unfold derive_events. rewrite !lookups_app, !multiply_lookups, L1. destruct (enc_sign k); cbn [negb app lookups flat_map]; reflexivity.
Qed.
End Hash.
