(* What the trace of signing consists of. *)
From Coq Require Import ZArith List Bool Lia.
From Verif Require Import SpecField SpecBytes SpecScalar SpecCurve SpecDecode SpecEd448 SpecTrace Base Arith Bytes Constants32 BigNumber ScalarModel
  Niels CombTable Errors ExtendedPoint Eddsa Goldilocks Trace.
From Verif Require Import ScalarProofs PointMul CombMul BaseTables Ed448.
Import ListNotations.
Open Scope Z_scope.

(* forgetting the trace gives the function *)
Definition value {A : Type} (x : traced A) : option A := match x with Some (_, a) => Some a | None => None end.
Lemma value_quiet : forall (A : Type) (o : option A), value (quiet o) = o.
Proof. intros A [a|]; reflexivity. Qed.
Lemma value_emit : forall (B : Type) e (f : unit -> traced B), value (tbind (emit e) f) = value (f tt).
Proof. intros B e f. unfold tbind, emit. destruct (f tt) as [(t, b)|]; reflexivity. Qed.
Lemma value_bind : forall (A B : Type) (x : traced A) (f : A -> traced B) o (g : A -> option B),
  value x = o -> (forall a, value (f a) = g a) -> value (tbind x f) = bind o g.
Proof.
  intros A B [(t, a)|] f o g <- H; [ | reflexivity ]. cbn [value bind tbind]. rewrite <- H. destruct (f a) as [(t', b)|]; reflexivity.
Qed.
Lemma value_q : forall (A B : Type) (x : option A) (f : A -> traced B) (g : A -> option B),
  (forall a, value (f a) = g a) -> value (tbind (quiet x) f) = bind x g.
Proof. intros A B x f g H. apply value_bind; [ apply value_quiet | exact H ]. Qed.

Lemma short_word_v : forall n j b size k out, value (t_short_word n j b size k out) = short_word n j b size k out.
Proof.
  induction n as [|n IH]; intros j b size k out; [ reflexivity | ]. cbn [t_short_word short_word]; cbv beta delta [branch load rest lookup]. rewrite value_emit.
  destruct (k >=? size); [ reflexivity | ]. rewrite value_emit. apply value_q. intro a. apply IH.
Qed.
Lemma short_words_v : forall n b size k, value (t_short_words n b size k) = short_words n b size k.
Proof.
  induction n as [|n IH]; intros b size k; [ reflexivity | ]. cbn [t_short_words short_words].
  apply value_bind; [ apply short_word_v | ]. intros (out, k'). cbn [fst snd]. apply value_bind; [ apply IH | ]. intro r. reflexivity.
Qed.
Lemma decode_v : forall b, value (t_decode b) = decode b.
Proof.
  intro b. unfold t_decode, decode. apply value_bind; [ apply short_words_v | ]. intro s. apply value_q. intros _. apply value_quiet.
Qed.
Lemma long_loop_v : forall n b size r, value (t_long_loop n b size r) = long_loop n b size r.
Proof.
  induction n as [|n IH]; intros b size r; cbn [t_long_loop long_loop]; cbv beta delta [branch load rest lookup]; rewrite value_emit; destruct (size >? 0); try reflexivity.
  apply value_q. intro s. apply value_q. intro x. rewrite value_emit. apply value_bind; [ apply decode_v | ]. intro y. apply value_q. intro z. apply IH.
Qed.
Lemma decode_long_v : forall b, value (t_decode_long b) = decode_long b.
Proof.
  intro b. unfold t_decode_long, decode_long; cbv beta delta [branch load rest lookup]. cbv zeta. rewrite value_emit.
  destruct (Z.of_nat (length b) =? 0); [ reflexivity | ]. rewrite !value_emit. apply value_bind; [ apply short_words_v | ].
  intro r. rewrite value_emit. destruct (Z.of_nat (length b) =? SCALAR_SER_BYTES); [ apply value_quiet | apply long_loop_v ].
Qed.
Lemma comb_tab_v : forall n k s i j tab, value (t_comb_tab n k s i j tab) = comb_tab n k s i j tab.
Proof.
  induction n as [|n IH]; intros k s i j tab; [ reflexivity | ]. cbn [t_comb_tab comb_tab]; cbv beta delta [branch load rest lookup]. cbv zeta. rewrite value_emit.
  apply value_bind; [ | intro x; apply IH ].
  destruct (_ <? _); [ | reflexivity ]. rewrite value_emit. apply value_q. intro w. reflexivity.
Qed.
Lemma comb_inner_v : forall n j s i p, value (t_comb_inner n j s i p) = comb_inner n j s i p.
Proof.
  induction n as [|n IH]; intros j s i p; [ reflexivity | ]. cbn [t_comb_inner comb_inner]; cbv beta delta [branch load rest lookup]. apply value_bind; [ apply comb_tab_v | ].
  intro tab. cbv zeta. rewrite value_emit. apply value_q. intro np. apply value_q. intro np'. rewrite value_emit.
  apply value_bind; [ | intro x; apply IH ]. destruct (_ || _); apply value_quiet.
Qed.
Lemma comb_outer_v : forall n s p, value (t_comb_outer n s p) = comb_outer n s p.
Proof.
  induction n as [|n IH]; intros s p; [ reflexivity | ]. cbn [t_comb_outer comb_outer]; cbv beta delta [branch load rest lookup]. cbv zeta. rewrite value_emit.
  apply value_bind; [ destruct (negb _); apply value_quiet | ]. intro x. apply value_bind; [ apply comb_inner_v | ]. intro y. apply IH.
Qed.
Lemma precomputed_v : forall s, value (t_precomputed_scalar_mul s) = precomputed_scalar_mul s.
Proof. intro s. unfold t_precomputed_scalar_mul, precomputed_scalar_mul. apply value_q. intro x. apply comb_outer_v. Qed.
Lemma point_by_secret_v : forall k, value (t_point_by_secret k) = point_by_secret k.
Proof.
  intro k. unfold t_point_by_secret, point_by_secret. apply value_q. intro d. apply value_bind; [ apply decode_long_v | ]. intro r. apply precomputed_v.
Qed.
Lemma secret_to_public_v : forall k, value (t_secret_to_public k) = secret_to_public k.
Proof.
  intro k. unfold t_secret_to_public, secret_to_public. apply value_bind; [ apply point_by_secret_v | ]. intro h. apply value_quiet.
Qed.
Section Value.
Variable xof : list Z -> nat -> list Z.
Lemma private_to_public_v : forall k, value (t_private_to_public xof k) = private_to_public xof k.
Proof.
  intro k. unfold t_private_to_public, private_to_public. apply value_bind; [ | intro s; apply secret_to_public_v ].
  unfold t_private_to_secret, private_to_secret. cbv zeta.
  change (b <- znth (sha3 xof k 57) 56;; zupd (sha3 xof k 57) 56 (Z.lor b 128))
    with (bind (Some (sha3 xof k 57)) (fun sk => b <- znth sk 56 ;; zupd sk 56 (Z.lor b 128))).
  apply value_bind; [ reflexivity | ]. intro sk. apply value_q. intro b. apply value_quiet.
Qed.
Lemma dom_v : forall (B : Type) x n (f : list Z -> traced B) g, (forall a, value (f a) = g a) ->
  value (tbind (t_hash_with_dom xof x n) f) = g (hash_with_dom xof x n).
Proof.
  intros B x n f g H. change (g (hash_with_dom xof x n)) with (bind (Some (hash_with_dom xof x n)) g). apply value_bind; [ reflexivity | exact H ].
Qed.
Lemma sign_tail_v : forall sec seed p message, value (t_sign_tail xof sec seed p message) = sign_tail xof sec seed p message.
Proof.
  intros sec seed p message. unfold t_sign_tail, sign_tail. cbv zeta.
  apply (dom_v _ _ _ _ (fun nonce => nonce_scalar <- decode_long nonce ;; np <- precomputed_scalar_mul (halve (halve nonce_scalar)) ;;
    nonce_point <- eddsa_like_encode np ;; penc <- eddsa_like_encode p ;;
    challenge_scalar <- decode_long (hash_with_dom xof (nonce_point ++ penc ++ message) 114) ;;
    challenge_scalar <- smul challenge_scalar sec ;; challenge_scalar <- sadd challenge_scalar nonce_scalar ;;
    Some (nonce_point ++ encode challenge_scalar))).
  intro nonce. apply value_bind; [ apply decode_long_v | ]. intro ns. apply value_bind; [ apply precomputed_v | ]. intro np.
  apply value_q. intro ne. apply value_q. intro pe.
  apply (dom_v _ _ _ _ (fun c => challenge_scalar <- decode_long c ;;
    challenge_scalar <- smul challenge_scalar sec ;; challenge_scalar <- sadd challenge_scalar ns ;; Some (ne ++ encode challenge_scalar))).
  intro c. apply value_bind; [ apply decode_long_v | ]. intro cs. apply value_q. intro c2. apply value_q. intro c3. reflexivity.
Qed.
Lemma sign_by_private_v : forall k message, value (t_sign_by_private xof k message) = sign_by_private xof k message.
Proof.
  intros k message. unfold t_sign_by_private, sign_by_private. cbv zeta.
  change (bind (clamp (sha3 xof k 114)) ?f) with (bind (Some (sha3 xof k 114)) (fun s => bind (clamp s) f)).
  apply value_bind; [ reflexivity | ]. intro s. apply value_q. intro s2. apply value_q. intro sk. apply value_bind; [ apply decode_long_v | ].
  intro sec. apply value_q. intro seed. apply value_bind; [ apply point_by_secret_v | ]. intro p. apply sign_tail_v.
Qed.
Lemma sign_secret_v : forall k n message, value (t_sign_with_secret_and_nonce xof k n message) = sign_with_secret_and_nonce xof k n message.
Proof.
  intros k n message. unfold t_sign_with_secret_and_nonce, sign_with_secret_and_nonce. apply value_q. intro s. apply value_bind; [ apply decode_long_v | ].
  intro sec. apply value_bind; [ apply point_by_secret_v | ]. intro p. apply sign_tail_v.
Qed.
Theorem sign_v : forall k message, value (t_ed448_sign xof k message) = ed448_sign xof k message.
Proof.
  intros k message. unfold t_ed448_sign, ed448_sign; cbv beta delta [branch load rest lookup]. apply value_q. intro b. rewrite value_emit.
  destruct (Z.land b 128 =? 0); [ apply sign_by_private_v | ]. apply value_q. intro d. apply sign_secret_v.
Qed.
Theorem derive_v : forall k, value (t_ed448_derive_public xof k) = ed448_derive_public xof k.
Proof.
  intro k. unfold t_ed448_derive_public, ed448_derive_public; cbv beta delta [branch load rest lookup]. apply value_q. intro b. rewrite value_emit.
  destruct (Z.land b 128 =? 0); [ apply private_to_public_v | apply secret_to_public_v ].
Qed.
End Value.

(* the table entries read *)
Definition lk {A : Type} (x : traced A) (l : list Z) : Prop := match x with Some (t, _) => lookups t = l | None => True end.
Lemma lookups_app : forall t t', lookups (t ++ t') = lookups t ++ lookups t'.
Proof. intros t t'. unfold lookups. apply flat_map_app. Qed.
Lemma lk_bind : forall (A B : Type) (x : traced A) (f : A -> traced B) l l',
  lk x l -> (forall a, value x = Some a -> lk (f a) l') -> lk (tbind x f) (l ++ l').
Proof.
  intros A B [(t, a)|] f l l' H K; [ | exact I ]. specialize (K a eq_refl). cbn [tbind lk] in *. destruct (f a) as [(t', b)|]; [ | exact I ].
  cbn [lk] in *. rewrite lookups_app, H, K. reflexivity.
Qed.
Lemma lk_quiet : forall (A : Type) (o : option A), lk (quiet o) [].
Proof. intros A [a|]; [ reflexivity | exact I ]. Qed.
Lemma lk_q : forall (A B : Type) (o : option A) (f : A -> traced B) l, (forall a, o = Some a -> lk (f a) l) -> lk (tbind (quiet o) f) l.
Proof. intros A B o f l H. apply (lk_bind _ _ _ _ [] l); [ apply lk_quiet | ]. intros a. rewrite value_quiet. apply H. Qed.
Lemma lk_emit : forall (B : Type) e (f : unit -> traced B) l l', lookups [e] = l -> lk (f tt) l' -> lk (tbind (emit e) f) (l ++ l').
Proof. intros B e f l l' H K. apply lk_bind; [ exact H | ]. intros [] _. exact K. Qed.
Lemma lk_br : forall (B : Type) n b (f : unit -> traced B) l, lk (f tt) l -> lk (tbind (emit (Branch n b)) f) l.
Proof. intros B n b f l. apply (lk_emit B _ f [] l). reflexivity. Qed.
Lemma lk_ld : forall (B : Type) n b (f : unit -> traced B) l, lk (f tt) l -> lk (tbind (emit (Load n b)) f) l.
Proof. intros B n b f l. apply (lk_emit B _ f [] l). reflexivity. Qed.
Lemma lk_hash : forall (B : Type) n b (f : unit -> traced B) l, lk (f tt) l -> lk (tbind (emit (Hash n b)) f) l.
Proof. intros B n b f l. apply (lk_emit B _ f [] l). reflexivity. Qed.
Lemma lk_0 : forall (A B : Type) (x : traced A) (f : A -> traced B) l, lk x [] -> (forall a, value x = Some a -> lk (f a) l) -> lk (tbind x f) l.
Proof. intros A B x f l. apply (lk_bind A B x f [] l). Qed.

Lemma short_word_l : forall n j b size k out, lk (t_short_word n j b size k out) [].
Proof.
  induction n as [|n IH]; intros j b size k out; [ reflexivity | ]. cbn [t_short_word]; cbv beta delta [branch load rest lookup]. apply lk_br.
  destruct (k >=? size); [ reflexivity | ]. apply lk_ld. apply lk_q. intros a _. apply IH.
Qed.
Lemma short_words_l : forall n b size k, lk (t_short_words n b size k) [].
Proof.
  induction n as [|n IH]; intros b size k; [ reflexivity | ]. cbn [t_short_words].
  apply lk_0; [ apply short_word_l | ]. intros w _. apply lk_0; [ apply IH | ]. intros r _. reflexivity.
Qed.
Lemma decode_l : forall b, lk (t_decode b) [].
Proof.
  intro b. unfold t_decode. apply lk_0; [ apply short_words_l | ]. intros s _. apply lk_q. intros x _. apply lk_quiet.
Qed.
Lemma long_loop_l : forall n b size r, lk (t_long_loop n b size r) [].
Proof.
  induction n as [|n IH]; intros b size r; cbn [t_long_loop]; cbv beta delta [branch load rest lookup]; apply lk_br; destruct (size >? 0); try reflexivity; try exact I.
  apply lk_q. intros s _. apply lk_q. intros x _. apply lk_ld. apply lk_0; [ apply decode_l | ]. intros y _. apply lk_q. intros z _. apply IH.
Qed.
Lemma decode_long_l : forall b, lk (t_decode_long b) [].
Proof.
  intro b. unfold t_decode_long; cbv beta delta [branch load rest lookup]. cbv zeta. apply lk_br.
  destruct (Z.of_nat (length b) =? 0); [ reflexivity | ]. apply lk_br. apply lk_ld. apply lk_0; [ apply short_words_l | ].
  intros r _. apply lk_br. destruct (Z.of_nat (length b) =? SCALAR_SER_BYTES); [ apply lk_quiet | apply long_loop_l ].
Qed.
Lemma comb_tab_l : forall n k s i j tab, lk (t_comb_tab n k s i j tab) [].
Proof.
  induction n as [|n IH]; intros k s i j tab; [ reflexivity | ]. cbn [t_comb_tab]; cbv beta delta [branch load rest lookup]. cbv zeta. apply lk_br.
  apply lk_0; [ | intros x _; apply IH ].
  destruct (_ <? _); [ | reflexivity ]. apply lk_ld. apply lk_q. intros w _. reflexivity.
Qed.
(* the digit as the specification reads it *)
Lemma digit_eq : forall N i j, 0 <= i -> 0 <= j -> comb_digit N i j =
  Z.b2z (hbit N i j 0) + 2 * Z.b2z (hbit N i j 1) + 4 * Z.b2z (hbit N i j 2) + 8 * Z.b2z (hbit N i j 3) + 16 * Z.b2z (hbit N i j 4).
Proof.
  intros N i j Hi Hj. unfold comb_digit, hbit. cbv zeta.
  rewrite !(Z.add_comm (5 * j)). rewrite <- !Z.testbit_spec' by lia. reflexivity.
Qed.
Lemma index_eq : forall s i j tab, wf s -> v32 s < 2 ^ 446 -> 0 <= i < 18 -> 0 <= j < 5 -> comb_tab 5 0 s i j 0 = Some tab ->
  Z.shiftl j (DECAF_COMB_TEETH - 1) +
  Z.land (Z.lxor tab (wrap32 (Z.shiftr (as_i32 tab) (DECAF_COMB_TEETH - 1) - 1))) (2 ^ (DECAF_COMB_TEETH - 1) - 1) = comb_address (v32 s) i j.
Proof.
  intros s i j tab Hs Hv Hi Hj E. rewrite !comb_tab_step in E by (assumption || lia). cbn [comb_tab] in E.
  apply (f_equal (fun o => match o with Some x => x | None => 0 end)) in E. cbv beta iota in E. subst tab.
  change (0 + 1) with 1. change (1 + 1) with 2. change (2 + 1) with 3. change (3 + 1) with 4.
  unfold comb_address. cbv zeta. rewrite digit_eq by lia. change (DECAF_COMB_TEETH - 1) with 4. rewrite (Z.shiftl_mul_pow2 j 4) by lia.
  change (2 ^ 4) with 16. rewrite (Z.mul_comm j). f_equal.
  destruct (hbit (v32 s) i j 0), (hbit (v32 s) i j 1), (hbit (v32 s) i j 2), (hbit (v32 s) i j 3), (hbit (v32 s) i j 4); vm_compute; reflexivity.
Qed.
Lemma comb_inner_l : forall n j s i p, wf s -> v32 s < 2 ^ 446 -> 0 <= i < 18 -> 0 <= j -> j + Z.of_nat n = 5 ->
  lk (t_comb_inner n j s i p) (map (fun k => comb_address (v32 s) i (j + Z.of_nat k)) (seq 0 n)).
Proof.
  induction n as [|n IH]; intros j s i p Hs Hv Hi Hj Hn; [ reflexivity | ]. cbn [t_comb_inner]; cbv beta delta [branch load rest lookup]. apply lk_0; [ apply comb_tab_l | ].
  intros tab Et. rewrite comb_tab_v in Et. cbv zeta. rewrite (index_eq s i j tab Hs Hv Hi ltac:(lia) Et).
  cbn [seq map]. rewrite Z.add_0_r. apply (lk_emit _ _ _ [comb_address (v32 s) i j]); [ reflexivity | ].
  apply lk_q. intros np _. apply lk_q. intros np' _. apply lk_br.
  apply lk_0; [ destruct (_ || _); apply lk_quiet | ]. intros x _.
  assert (E : map (fun k => comb_address (v32 s) i (j + Z.of_nat k)) (seq 1 n) = map (fun k => comb_address (v32 s) i (j + 1 + Z.of_nat k)) (seq 0 n)).
  { rewrite <- seq_shift, map_map. apply map_ext. intro k. f_equal. lia. }
  rewrite E. apply IH; try assumption; lia.
Qed.
Lemma comb_outer_l : forall n s p, wf s -> v32 s < 2 ^ 446 -> (n <= 18)%nat -> lk (t_comb_outer n s p) (comb_rounds (v32 s) n).
Proof.
  induction n as [|n IH]; intros s p Hs Hv Hn; [ reflexivity | ]. cbn [t_comb_outer comb_rounds]; cbv beta delta [branch load rest lookup]. cbv zeta. apply lk_br.
  apply lk_0; [ destruct (negb _); apply lk_quiet | ]. intros x _. apply lk_bind; [ | intros y _; apply IH; try assumption; lia ].
  apply (comb_inner_l 5 0 s (Z.of_nat n) x Hs Hv); lia.
Qed.
Lemma quarter_num : forall s, red s -> forall a, v32 s = a mod q448 ->
  ((v32 (halve (halve s)) + (2 ^ 450 - 1)) * ((q448 + 1) / 2)) mod q448 = comb_number a.
Proof.
  intros s Hs a Ea. destruct (quarter_ok s Hs) as (R & V). unfold comb_number. set (m := v32 (halve (halve s))) in *.
  assert (E : m mod q448 = (a * ((q448 + 1) / 4)) mod q448).
  { rewrite Ea, Z.mod_mod in V by exact q448_nz. rewrite <- (Zmult_mod_idemp_l a), <- V, Zmult_mod_idemp_l.
    replace (4 * m * ((q448 + 1) / 4)) with (m * (4 * ((q448 + 1) / 4))) by ring. change (4 * ((q448 + 1) / 4)) with (q448 + 1).
    replace (m * (q448 + 1)) with (m + m * q448) by ring. rewrite Z.mod_add by exact q448_nz. reflexivity. }
  rewrite <- Zmult_mod_idemp_l, <- (Zmult_mod_idemp_l (a * _ + _ - 1)). f_equal. f_equal.
  replace (a * ((q448 + 1) / 4) + 2 ^ 450 - 1) with (a * ((q448 + 1) / 4) + (2 ^ 450 - 1)) by ring.
  rewrite <- (Zplus_mod_idemp_l m), <- (Zplus_mod_idemp_l (a * _)), E. reflexivity.
Qed.
Lemma precomputed_l : forall s a, red s -> v32 s = a mod q448 -> lk (t_precomputed_scalar_mul (halve (halve s))) (table_addresses a).
Proof.
  intros s a Hs Ea. unfold t_precomputed_scalar_mul. destruct (quarter_ok s Hs) as (R & _).
  destruct (adjust_ok _ R) as (t & Et & Rt & Vt). rewrite Et. apply lk_q. intros t' E'. apply (f_equal (fun o => match o with Some x => x | None => t end)) in E'. cbv beta iota in E'. subst t'.
  cbv zeta. unfold table_addresses. unfold meff in Vt. rewrite (quarter_num s Hs a Ea) in Vt.
  assert (E : v32 (halve t) = comb_number a) by lia. rewrite <- E.
  apply comb_outer_l; [ exact (proj1 Rt) | pose proof q448_bounds; destruct Rt; lia | lia ].
Qed.
Lemma point_by_secret_l : forall k, length k = 57%nat -> bytes k -> lk (t_point_by_secret k) (table_addresses (secret_scalar k)).
Proof.
  intros k L B. unfold t_point_by_secret. rewrite clamp_ok by (assumption || lia). rewrite skipn_all2, app_nil_r by lia.
  apply lk_q. intros d Ed. apply (f_equal (fun o => match o with Some x => x | None => d end)) in Ed. cbv beta iota in Ed. subst d.
  destruct (decode_key k ltac:(lia) B) as (r & E & R & V).
  apply lk_0; [ apply decode_long_l | ]. intros r' Er. rewrite decode_long_v, E in Er. apply (f_equal (fun o => match o with Some x => x | None => r end)) in Er. cbv beta iota in Er. subst r'.
  cbv zeta. apply precomputed_l; assumption.
Qed.
Section Hash.
Variable xof : list Z -> nat -> list Z.
Hypothesis XOF : is_xof xof.
Lemma dom_l : forall (B : Type) x n (f : list Z -> traced B) l, lk (f (hash_with_dom xof x n)) l -> lk (tbind (t_hash_with_dom xof x n) f) l.
Proof.
  intros B x n f l H. apply lk_0; [ reflexivity | ]. intros a E. apply (f_equal (fun o => match o with Some y => y | None => a end)) in E.
  cbv beta iota in E. unfold value, t_hash_with_dom, emit, tbind, quiet in E. subst a. exact H.
Qed.
Lemma sign_tail_l : forall sec seed p message,
  lk (t_sign_tail xof sec seed p message) (table_addresses (le_val (xof (rfc_dom ++ seed ++ message) 114))).
Proof.
  intros sec seed p message. unfold t_sign_tail. cbv zeta. apply dom_l. unfold hash_with_dom at 1. change DOM with rfc_dom.
  set (nonce := xof (rfc_dom ++ seed ++ message) 114).
  destruct (decode_long_ok nonce (xof_bytes xof XOF _ _)) as (r & E & R & V). { unfold nonce. rewrite (xof_len xof XOF). reflexivity. }
  apply lk_0; [ apply decode_long_l | ]. intros r' Er. rewrite decode_long_v, E in Er. apply (f_equal (fun o => match o with Some x => x | None => r end)) in Er. cbv beta iota in Er. subst r'.
  rewrite <- (app_nil_r (table_addresses _)). apply lk_bind; [ apply precomputed_l; assumption | ]. intros np _.
  apply lk_q. intros ne _. apply lk_q. intros pe _. apply dom_l. apply lk_0; [ apply decode_long_l | ]. intros c _.
  apply lk_q. intros c2 _. apply lk_q. intros c3 _. reflexivity.
Qed.
Lemma inj_some : forall (A : Type) (x y : A), Some x = Some y -> x = y.
Proof. intros A x y E. apply (f_equal (fun o => match o with Some z => z | None => x end)) in E. exact E. Qed.
Theorem sign_lookups : forall key message, length key = 57%nat -> bytes key ->
  exists t sig, t_ed448_sign xof key message = Some (t, sig) /\ ed448_sign xof key message = Some sig /\
  lookups t = table_addresses (key_scalar xof key) ++ table_addresses (key_nonce xof key message).
Proof.
  intros k message L B.
  assert (K : lk (t_ed448_sign xof k message) (table_addresses (key_scalar xof k) ++ table_addresses (key_nonce xof k message))).
  { unfold t_ed448_sign; cbv beta delta [branch load rest lookup]. apply lk_q. intros b Eb. apply lk_br. destruct (top_bit k L B) as (b' & E & T). rewrite E in Eb. apply inj_some in Eb. subst b'.
    rewrite T. unfold key_scalar, key_nonce, key_prefix. destruct (enc_sign k); cbn [negb].
    - rewrite clamp_ok by (assumption || lia). rewrite skipn_all2, app_nil_r by lia. apply lk_q. intros d Ed. apply inj_some in Ed. subst d.
      set (s := le_bytes 57 (secret_scalar k)).
      assert (Es : secret_scalar s = secret_scalar k) by (unfold s; rewrite <- (app_nil_r (le_bytes 57 _)); apply secret_again; exact B).
      unfold t_sign_with_secret_and_nonce. apply lk_q. intros s1 _. apply lk_0; [ apply decode_long_l | ]. intros sec _.
      apply lk_bind; [ rewrite <- Es; apply point_by_secret_l; [ apply le_bytes_length | apply le_bytes_bytes ] | ].
      intros p _. apply sign_tail_l.
    - unfold t_sign_by_private. apply lk_0; [ reflexivity | ]. intros h Eh. unfold t_sha3, emit, tbind, quiet, value, sha3 in Eh. apply inj_some in Eh. subst h.
      set (h := xof k 114). assert (Bh : bytes h) by apply (xof_bytes xof XOF). assert (Lh : length h = 114%nat) by apply (xof_len xof XOF).
      apply lk_q. intros c Ec. rewrite clamp_ok in Ec by (assumption || lia). apply inj_some in Ec. subst c.
      apply lk_q. intros sk Ek. rewrite slice_app_l in Ek by apply le_bytes_length. apply inj_some in Ek. subst sk.
      apply lk_0; [ apply decode_long_l | ]. intros sec _. apply lk_q. intros seed Ed.
      rewrite slice_app_r in Ed; [ | apply le_bytes_length | rewrite skipn_length, Lh; reflexivity ]. apply inj_some in Ed. subst seed.
      set (s := le_bytes 57 (secret_scalar h)).
      assert (Es : secret_scalar s = secret_scalar h) by (unfold s; rewrite <- (app_nil_r (le_bytes 57 _)); apply secret_again; exact Bh).
      apply lk_bind; [ rewrite <- Es; apply point_by_secret_l; [ apply le_bytes_length | apply le_bytes_bytes ] | ].
      intros p _. apply sign_tail_l. }
  pose proof (sign_v xof k message) as V. rewrite (sign_ok xof XOF k message L B) in V.
  destruct (t_ed448_sign xof k message) as [(t, sig)|]; [ | discriminate V ].
  exists t, sig. split; [ reflexivity | ]. split; [ rewrite (sign_ok xof XOF k message L B), <- V; reflexivity | exact K ].
Qed.
Theorem derive_lookups : forall key, length key = 57%nat -> bytes key ->
  exists t pub, t_ed448_derive_public xof key = Some (t, pub) /\ ed448_derive_public xof key = Some pub /\ lookups t = table_addresses (key_scalar xof key).
Proof.
  intros k L B.
  assert (P : forall s, length s = 57%nat -> bytes s -> lk (t_secret_to_public s) (table_addresses (secret_scalar s))).
  { intros s Ls Bs. unfold t_secret_to_public. rewrite <- (app_nil_r (table_addresses _)). apply lk_bind; [ apply point_by_secret_l; assumption | ].
    intros h _. apply lk_quiet. }
  assert (K : lk (t_ed448_derive_public xof k) (table_addresses (key_scalar xof k))).
  { unfold t_ed448_derive_public; cbv beta delta [branch load rest lookup]. apply lk_q. intros b Eb. apply lk_br. destruct (top_bit k L B) as (b' & E & T). rewrite E in Eb. apply inj_some in Eb. subst b'.
    rewrite T. unfold key_scalar. destruct (enc_sign k); cbn [negb]; [ apply P; assumption | ].
    unfold t_private_to_public. apply lk_0.
    - unfold t_private_to_secret. apply lk_0; [ reflexivity | ]. intros h _. apply lk_q. intros c _. apply lk_quiet.
    - intros s Es.
      assert (Es' : private_to_secret xof k = Some s).
      { rewrite <- Es. unfold t_private_to_secret, private_to_secret. cbv zeta. symmetry. unfold t_sha3.
        change (b <- znth (sha3 xof k 57) 56;; zupd (sha3 xof k 57) 56 (Z.lor b 128))
          with (bind (Some (sha3 xof k 57)) (fun sk => b <- znth sk 56 ;; zupd sk 56 (Z.lor b 128))).
        apply value_bind; [ reflexivity | ]. intro sk. apply value_q. intro c. apply value_quiet. }
      destruct (private_to_secret_ok xof XOF k) as (c & E2 & Hc). rewrite E2 in Es'. apply inj_some in Es'. subst s.
      assert (Lf : length (firstn 56 (xof k 114)) = 56%nat) by (rewrite firstn_length, (xof_len xof XOF); reflexivity).
      replace (secret_scalar (xof k 114)) with (secret_scalar (firstn 56 (xof k 114) ++ [c])).
      + apply P; [ rewrite app_length, Lf; reflexivity | ].
        apply Forall_app. split; [ apply bytes_firstn; apply (xof_bytes xof XOF) | ]. repeat constructor; unfold byte; lia.
      + apply secret_firstn. rewrite firstn_app, Lf, Nat.sub_diag, firstn_O, app_nil_r. apply firstn_all2. lia. }
  pose proof (derive_v xof k) as V. rewrite (derive_public_ok xof XOF k L B) in V.
  destruct (t_ed448_derive_public xof k) as [(t, pub)|]; [ | discriminate V ].
  exists t, pub. split; [ reflexivity | ]. split; [ rewrite (derive_public_ok xof XOF k L B), <- V; reflexivity | exact K ].
Qed.
End Hash.

(* apart from the table entries, the trace is the same for all keys of one kind and all messages of one length *)
Definition hide (e : event) : event := match e with Lookup _ => Lookup 0 | _ => e end.
Definition shp {A : Type} (P : A -> A -> Prop) (x y : traced A) : Prop :=
  match x, y with Some (t, a), Some (t', a') => map hide t = map hide t' /\ P a a' | _, _ => True end.
Definition any {A : Type} (a a' : A) : Prop := True.
Lemma shp_bind : forall (A B : Type) (P : A -> A -> Prop) (Q : B -> B -> Prop) x y (f g : A -> traced B),
  shp P x y -> (forall a a', P a a' -> shp Q (f a) (g a')) -> shp Q (tbind x f) (tbind y g).
Proof.
  intros A B P Q [(t, a)|] [(t', a')|] f g H K; try exact I.
  - destruct H as (H1 & H2). specialize (K a a' H2). cbn [tbind]. destruct (f a) as [(u, b)|]; [ | exact I ]. destruct (g a') as [(u', b')|]; [ | exact I ].
    destruct K as (K1 & K2). split; [ rewrite !map_app, H1, K1; reflexivity | exact K2 ].
  - cbn [tbind]. destruct (f a) as [(u, b)|]; exact I.
Qed.
Lemma shp_quiet : forall (A : Type) (P : A -> A -> Prop) o o', (forall a a', o = Some a -> o' = Some a' -> P a a') -> shp P (quiet o) (quiet o').
Proof. intros A P [a|] [a'|] H; try exact I. split; [ reflexivity | apply H; reflexivity ]. Qed.
Lemma shp_any : forall (A : Type) (o o' : option A), shp any (quiet o) (quiet o').
Proof. intros A o o'. apply shp_quiet. intros; exact I. Qed.
Lemma shp_q : forall (A B : Type) (Q : B -> B -> Prop) (o o' : option A) (f g : A -> traced B),
  (forall a a', o = Some a -> o' = Some a' -> shp Q (f a) (g a')) -> shp Q (tbind (quiet o) f) (tbind (quiet o') g).
Proof.
  intros A B Q o o' f g H. apply (shp_bind A B (fun a a' => o = Some a /\ o' = Some a')); [ apply shp_quiet; auto | ].
  intros a a' (E & E'). apply H; assumption.
Qed.
Lemma shp_e : forall (B : Type) (Q : B -> B -> Prop) e e' (f g : unit -> traced B), hide e = hide e' -> shp Q (f tt) (g tt) -> shp Q (tbind (emit e) f) (tbind (emit e') g).
Proof.
  intros B Q e e' f g H K. apply (shp_bind unit B any); [ split; [ cbn [map]; rewrite H; reflexivity | exact I ] | ]. intros [] [] _. exact K.
Qed.
Lemma short_word_s : forall n j b b' size k out out', shp (fun a a' => snd a = snd a') (t_short_word n j b size k out) (t_short_word n j b' size k out').
Proof.
  induction n as [|n IH]; intros j b b' size k out out'; [ split; reflexivity | ]. cbn [t_short_word]; cbv beta delta [branch load rest lookup]. apply shp_e; [ reflexivity | ].
  destruct (k >=? size); [ split; reflexivity | ]. apply shp_e; [ reflexivity | ]. apply shp_q. intros a a' _ _. apply IH.
Qed.
Lemma short_words_s : forall n b b' size k, shp any (t_short_words n b size k) (t_short_words n b' size k).
Proof.
  induction n as [|n IH]; intros b b' size k; [ split; [ reflexivity | exact I ] | ]. cbn [t_short_words].
  eapply shp_bind; [ apply short_word_s | ]. cbv beta. intros (o, k1) (o', k1') E. cbn [snd fst] in E |- *. subst k1'.
  eapply shp_bind; [ apply IH | ]. intros r r' _. apply shp_any.
Qed.
Lemma decode_s : forall b b', shp any (t_decode b) (t_decode b').
Proof.
  intros b b'. unfold t_decode. eapply shp_bind; [ apply short_words_s | ]. intros s s' _. apply shp_q. intros x x' _ _. apply shp_any.
Qed.
Lemma long_loop_s : forall n b b' size r r', shp any (t_long_loop n b size r) (t_long_loop n b' size r').
Proof.
  induction n as [|n IH]; intros b b' size r r'; cbn [t_long_loop]; cbv beta delta [branch load rest lookup]; (apply shp_e; [ reflexivity | ]); destruct (size >? 0); try exact I; try apply shp_any.
  apply shp_q. intros s s' E E'. rewrite E in E'. apply inj_some in E'. subst s'. apply shp_q. intros x x' _ _. apply shp_e; [ reflexivity | ].
  eapply shp_bind; [ apply decode_s | ]. intros y y' _. apply shp_q. intros z z' _ _. apply IH.
Qed.
Lemma decode_long_s : forall b b', length b = length b' -> shp any (t_decode_long b) (t_decode_long b').
Proof.
  intros b b' L. unfold t_decode_long; cbv beta delta [branch load rest lookup]. rewrite <- L. cbv zeta. apply shp_e; [ reflexivity | ].
  destruct (Z.of_nat (length b) =? 0); [ apply shp_any | ]. apply shp_e; [ reflexivity | ]. apply shp_e; [ reflexivity | ].
  eapply shp_bind; [ apply short_words_s | ]. intros r r' _. apply shp_e; [ reflexivity | ].
  destruct (Z.of_nat (length b) =? SCALAR_SER_BYTES); [ apply shp_any | apply long_loop_s ].
Qed.
Lemma comb_tab_s : forall n k s s' i j tab tab', shp any (t_comb_tab n k s i j tab) (t_comb_tab n k s' i j tab').
Proof.
  induction n as [|n IH]; intros k s s' i j tab tab'; [ split; [ reflexivity | exact I ] | ]. cbn [t_comb_tab]; cbv beta delta [branch load rest lookup]. cbv zeta. apply shp_e; [ reflexivity | ].
  apply (shp_bind Z Z any); [ | intros x x' _; apply IH ].
  destruct (_ <? _); [ | apply shp_any ]. apply shp_e; [ reflexivity | ]. apply shp_q. intros w w' _ _. apply shp_any.
Qed.
Lemma comb_inner_s : forall n j s s' i p p', shp any (t_comb_inner n j s i p) (t_comb_inner n j s' i p').
Proof.
  induction n as [|n IH]; intros j s s' i p p'; [ split; [ reflexivity | exact I ] | ]. cbn [t_comb_inner]; cbv beta delta [branch load rest lookup]. eapply shp_bind; [ apply comb_tab_s | ].
  intros tab tab' _. cbv zeta. apply shp_e; [ reflexivity | ]. apply shp_q. intros np np' _ _. apply shp_q. intros nq nq' _ _.
  apply shp_e; [ reflexivity | ]. apply (shp_bind point point any); [ destruct (_ || _); apply shp_any | ]. intros x x' _. apply IH.
Qed.
Lemma comb_outer_s : forall n s s' p p', shp any (t_comb_outer n s p) (t_comb_outer n s' p').
Proof.
  induction n as [|n IH]; intros s s' p p'; [ split; [ reflexivity | exact I ] | ]. cbn [t_comb_outer]; cbv beta delta [branch load rest lookup]. cbv zeta. apply shp_e; [ reflexivity | ].
  apply (shp_bind point point any); [ destruct (negb _); apply shp_any | ]. intros x x' _.
  eapply shp_bind; [ apply comb_inner_s | ]. intros y y' _. apply IH.
Qed.
Lemma precomputed_s : forall s s', shp any (t_precomputed_scalar_mul s) (t_precomputed_scalar_mul s').
Proof. intros s s'. unfold t_precomputed_scalar_mul. apply shp_q. intros x x' _ _. cbv zeta. apply comb_outer_s. Qed.
Lemma zupd_len : forall (l l' : list Z) i v, zupd l i v = Some l' -> length l' = length l.
Proof.
  intros l l' i v. unfold zupd. destruct (_ && _); [ | discriminate ]. intro E. apply inj_some in E. subst l'.
  generalize (Z.to_nat i). clear. induction l as [|x l IH]; intros [|n]; cbn [upd_nat length]; auto.
Qed.
Lemma clamp_len : forall l l', clamp l = Some l' -> length l' = length l.
Proof.
  intros l l'. unfold clamp. destruct (znth l 0) as [b0|]; [ rewrite bind_Some | discriminate ]. destruct (zupd l 0 _) as [l1|] eqn:E1; [ rewrite bind_Some | discriminate ].
  destruct (zupd l1 56 0) as [l2|] eqn:E2; [ rewrite bind_Some | discriminate ]. destruct (znth l2 55) as [b|]; [ rewrite bind_Some | discriminate ].
  intro E3. apply zupd_len in E1, E2, E3. congruence.
Qed.
Lemma slice_len : forall l a b s, slice l a b = Some s -> length s = (b - a)%nat.
Proof.
  intros l a b s. unfold slice. destruct (Nat.leb_spec a b); [ | discriminate ]. destruct (Nat.leb_spec b (length l)); [ | discriminate ]. cbn [andb].
  intro E. apply inj_some in E. subst s. rewrite firstn_length, skipn_length. lia.
Qed.
Lemma point_by_secret_s : forall k k', length k = length k' -> shp any (t_point_by_secret k) (t_point_by_secret k').
Proof.
  intros k k' L. unfold t_point_by_secret. apply shp_q. intros d d' E E'. apply clamp_len in E, E'.
  eapply shp_bind; [ apply decode_long_s; congruence | ]. intros r r' _. cbv zeta. apply precomputed_s.
Qed.
Section Shape.
Variable xof : list Z -> nat -> list Z.
Hypothesis XOF : is_xof xof.
Lemma sha3_s : forall x x' n, length x = length x' -> shp (fun a a' => length a = n /\ length a' = n) (t_sha3 xof x n) (t_sha3 xof x' n).
Proof.
  intros x x' n L. unfold t_sha3. rewrite L. apply shp_e; [ reflexivity | ]. apply shp_quiet. intros a a' E E'. apply inj_some in E, E'. subst a a'.
  unfold sha3. rewrite !(xof_len xof XOF). auto.
Qed.
Lemma dom_s : forall x x' n, length x = length x' -> shp (fun a a' => length a = n /\ length a' = n) (t_hash_with_dom xof x n) (t_hash_with_dom xof x' n).
Proof.
  intros x x' n L. unfold t_hash_with_dom. rewrite L. apply shp_e; [ reflexivity | ]. apply shp_quiet. intros a a' E E'. apply inj_some in E, E'. subst a a'.
  unfold hash_with_dom. rewrite !(xof_len xof XOF). auto.
Qed.
Lemma ser_len : forall n x fill buffer l, ser_loop n x fill buffer = Some l -> length l = n.
Proof.
  induction n as [|n IH]; intros x fill buffer l; cbn [ser_loop]; [ intro E; apply inj_some in E; subst l; reflexivity | ].
  set (st := match x with [] => _ | _ => _ end). destruct st as ((x1, f1), b1).
  destruct (chk_usize (f1 - 8)) as [f2|]; [ rewrite bind_Some | discriminate ].
  destruct (ser_loop n x1 f2 (Z.shiftr b1 8)) as [r|] eqn:E; [ rewrite bind_Some | discriminate ].
  intro E2. apply inj_some in E2. subst l. cbn [length]. f_equal. exact (IH _ _ _ _ E).
Qed.
Lemma encode_len : forall p e, eddsa_like_encode p = Some e -> length e = 57%nat.
Proof.
  intros p e. cbv beta delta [eddsa_like_encode]. intro E.
  repeat match goal with
  | H : (let x := ?v in _) = Some e |- _ => cbv zeta in H
  | H : bind ?o _ = Some e |- _ => destruct o eqn:?; [ rewrite bind_Some in H; cbv beta in H | discriminate H ]
  end.
  apply inj_some in E. subst e. rewrite app_length.
  match goal with H : dsa_like_serialize _ = Some ?l |- _ => assert (L : length l = 56%nat); [ revert H; unfold dsa_like_serialize | ] end.
  { match goal with |- bind ?o _ = _ -> _ => destruct o; [ rewrite bind_Some; apply ser_len | discriminate ] end. }
  rewrite L. reflexivity.
Qed.
Lemma sign_tail_s : forall sec sec' seed seed' p p' m m', length seed = length seed' -> length m = length m' ->
  shp any (t_sign_tail xof sec seed p m) (t_sign_tail xof sec' seed' p' m').
Proof.
  intros sec sec' seed seed' p p' m m' L1 L2. unfold t_sign_tail. cbv zeta.
  eapply shp_bind; [ apply dom_s; rewrite !app_length; congruence | ]. cbv beta. intros h h' (H & H').
  eapply shp_bind; [ apply decode_long_s; congruence | ]. intros r r' _. eapply shp_bind; [ apply precomputed_s | ]. intros np np' _.
  apply shp_q. intros e e' E E'. apply encode_len in E, E'. apply shp_q. intros f f' F F'. apply encode_len in F, F'.
  eapply shp_bind; [ apply dom_s; rewrite !app_length; congruence | ]. cbv beta. intros c c' (C & C').
  eapply shp_bind; [ apply decode_long_s; congruence | ]. intros x x' _. apply shp_q. intros y y' _ _. apply shp_q. intros z z' _ _. apply shp_any.
Qed.
Lemma enc_top : forall k, length k = 57%nat -> bytes k -> forall b, znth k (57 - 1) = Some b -> (Z.land b 128 =? 0) = negb (enc_sign k).
Proof. intros k L B b Eb. destruct (top_bit k L B) as (b' & E & T). rewrite E in Eb. apply inj_some in Eb. subst b'. exact T. Qed.
Lemma sign_s : forall k k' m m', length k = 57%nat -> bytes k -> length k' = 57%nat -> bytes k' -> enc_sign k = enc_sign k' -> length m = length m' ->
  shp any (t_ed448_sign xof k m) (t_ed448_sign xof k' m').
Proof.
  intros k k' m m' L B L' B' T LM. unfold t_ed448_sign; cbv beta delta [branch load rest lookup]. apply shp_q. intros b b' E E'.
  rewrite (enc_top k L B b E), (enc_top k' L' B' b' E'), <- T. apply shp_e; [ reflexivity | ].
  destruct (negb (enc_sign k)).
  - unfold t_sign_by_private. eapply shp_bind; [ apply sha3_s; congruence | ]. cbv beta. intros h h' (H & H').
    apply shp_q. intros c c' C C'. apply clamp_len in C, C'. apply shp_q. intros s s' S S'. apply slice_len in S, S'.
    eapply shp_bind; [ apply decode_long_s; congruence | ]. intros r r' _. apply shp_q. intros u u' U U'. apply slice_len in U, U'.
    eapply shp_bind; [ apply point_by_secret_s; congruence | ]. intros p p' _. apply sign_tail_s; congruence.
  - apply shp_q. intros d d' D D'. apply clamp_len in D, D'. unfold t_sign_with_secret_and_nonce. apply shp_q. intros s s' S S'. apply clamp_len in S, S'.
    eapply shp_bind; [ apply decode_long_s; congruence | ]. intros r r' _.
    eapply shp_bind; [ apply point_by_secret_s; congruence | ]. intros p p' _. apply sign_tail_s; congruence.
Qed.
Lemma secret_to_public_s : forall k k', length k = length k' -> shp any (t_secret_to_public k) (t_secret_to_public k').
Proof. intros k k' L. unfold t_secret_to_public. eapply shp_bind; [ apply point_by_secret_s; exact L | ]. intros p p' _. apply shp_any. Qed.
Lemma derive_s : forall k k', length k = 57%nat -> bytes k -> length k' = 57%nat -> bytes k' -> enc_sign k = enc_sign k' ->
  shp any (t_ed448_derive_public xof k) (t_ed448_derive_public xof k').
Proof.
  intros k k' L B L' B' T. unfold t_ed448_derive_public; cbv beta delta [branch load rest lookup]. apply shp_q. intros b b' E E'.
  rewrite (enc_top k L B b E), (enc_top k' L' B' b' E'), <- T. apply shp_e; [ reflexivity | ].
  destruct (negb (enc_sign k)); [ | apply secret_to_public_s; congruence ].
  unfold t_private_to_public. apply (shp_bind (list Z) (list Z) (fun a a' => length a = length a')); [ | intros s s' S; apply secret_to_public_s; exact S ].
  unfold t_private_to_secret. eapply shp_bind; [ apply sha3_s; congruence | ]. cbv beta. intros h h' (H & H').
  apply shp_q. intros c c' _ _. apply shp_quiet. intros u u' U U'. apply zupd_len in U, U'. congruence.
Qed.
End Shape.
Lemma same_trace : forall t t', map hide t = map hide t' -> lookups t = lookups t' -> t = t'.
Proof.
  induction t as [|e t IH]; intros [|e' t'] H K; try discriminate H; [ reflexivity | ]. cbn [map] in H. injection H as He Ht.
  unfold lookups in *. cbn [flat_map] in K.
  destruct e, e'; cbn [hide] in He; try discriminate He; cbn [app] in K.
  - rewrite He, (IH t' Ht K). reflexivity.
  - rewrite He, (IH t' Ht K). reflexivity.
  - injection K as K1 K2. rewrite K1, (IH t' Ht K2). reflexivity.
  - rewrite He, (IH t' Ht K). reflexivity.
Qed.
Theorem sign_only_lookups : forall xof, is_xof xof -> forall k k' m m' t t' sig sig', length k = 57%nat -> bytes k -> length k' = 57%nat -> bytes k' ->
  enc_sign k = enc_sign k' -> length m = length m' ->
  t_ed448_sign xof k m = Some (t, sig) -> t_ed448_sign xof k' m' = Some (t', sig') -> lookups t = lookups t' -> t = t'.
Proof.
  intros xof XOF k k' m m' t t' sig sig' L B L' B' T LM E E' K.
  pose proof (sign_s xof XOF k k' m m' L B L' B' T LM) as S. rewrite E, E' in S. destruct S as (S & _). apply same_trace; assumption.
Qed.
Theorem derive_only_lookups : forall xof, is_xof xof -> forall k k' t t' pub pub', length k = 57%nat -> bytes k -> length k' = 57%nat -> bytes k' ->
  enc_sign k = enc_sign k' ->
  t_ed448_derive_public xof k = Some (t, pub) -> t_ed448_derive_public xof k' = Some (t', pub') -> lookups t = lookups t' -> t = t'.
Proof.
  intros xof XOF k k' t t' pub pub' L B L' B' T E E' K.
  pose proof (derive_s xof XOF k k' L B L' B' T) as S. rewrite E, E' in S. destruct S as (S & _). apply same_trace; assumption.
Qed.
Lemma value_map : forall (A : Type) (x : traced A), option_map snd x = value x.
Proof. intros A [(t, a)|]; reflexivity. Qed.
Theorem sign_erase : forall xof k message, option_map snd (t_ed448_sign xof k message) = ed448_sign xof k message.
Proof. intros xof k message. rewrite value_map. apply sign_v. Qed.
Theorem derive_erase : forall xof k, option_map snd (t_ed448_derive_public xof k) = ed448_derive_public xof k.
Proof. intros xof k. rewrite value_map. apply derive_v. Qed.

(* what an address reveals: the digit up to complement *)
Lemma digit_range : forall N i j, 0 <= comb_digit N i j < 32.
Proof.
  intros N i j. unfold comb_digit. cbv zeta.
  assert (B : forall k, 0 <= (N / 2 ^ (i + 18 * (5 * j + k))) mod 2 < 2) by (intro k; apply Z.mod_pos_bound; lia).
  pose proof (B 0). pose proof (B 1). pose proof (B 2). pose proof (B 3). pose proof (B 4). lia.
Qed.
Theorem address_reveals : forall N N' i j, comb_address N i j = comb_address N' i j <->
  comb_digit N i j = comb_digit N' i j \/ comb_digit N i j + comb_digit N' i j = 31.
Proof.
  intros N N' i j. unfold comb_address. cbv zeta. pose proof (digit_range N i j). pose proof (digit_range N' i j).
  destruct (Z.ltb_spec (comb_digit N i j) 16), (Z.ltb_spec (comb_digit N' i j) 16); lia.
Qed.
Lemma rounds_len : forall N n, length (comb_rounds N n) = (5 * n)%nat.
Proof. intros N. induction n as [|n IH]; [ reflexivity | ]. cbn [comb_rounds]. rewrite app_length, IH. unfold comb_round. rewrite map_length. cbn [length]. lia. Qed.

(* two expanded keys with different first rounds *)
Definition leak1 : list Z := repeat 0 56 ++ [128].
Definition leak2 : list Z := 4 :: repeat 0 55 ++ [128].
Lemma leak_ok : length leak1 = 57%nat /\ bytes leak1 /\ length leak2 = 57%nat /\ bytes leak2 /\ enc_sign leak1 = true /\ enc_sign leak2 = true.
Proof.
  assert (B : forall l, forallb (fun b => (0 <=? b) && (b <? 256)) l = true -> bytes l).
  { intros l H. apply Forall_forall. intros x Hx. rewrite forallb_forall in H. specialize (H x Hx). apply andb_prop in H.
    destruct H as (H1 & H2). apply Z.leb_le in H1. apply Z.ltb_lt in H2. split; assumption. }
  split; [ reflexivity | ]. split; [ apply B; reflexivity | ]. split; [ reflexivity | ]. split; [ apply B; reflexivity | ]. split; reflexivity.
Qed.
Lemma leak_first : comb_address (comb_number (secret_scalar leak1)) 17 0 = 11 /\ comb_address (comb_number (secret_scalar leak2)) 17 0 = 9.
Proof. split; vm_compute; reflexivity. Qed.
Lemma first_address : forall s l, nth 0 (table_addresses s ++ l) 0 = comb_address (comb_number s) 17 0.
Proof. intros s l. unfold table_addresses. generalize (comb_number s). intro N. cbn [comb_rounds]. unfold comb_round. reflexivity. Qed.
Theorem leak_refuted : forall xof, is_xof xof -> exists key key', length key = 57%nat /\ bytes key /\ length key' = 57%nat /\ bytes key' /\
  enc_sign key = enc_sign key' /\ forall message, exists t sig t' sig',
  t_ed448_sign xof key message = Some (t, sig) /\ t_ed448_sign xof key' message = Some (t', sig') /\ t <> t'.
Proof.
  intros xof XOF. destruct leak_ok as (L1 & B1 & L2 & B2 & S1 & S2). exists leak1, leak2. split; [ exact L1 | ]. split; [ exact B1 | ].
  split; [ exact L2 | ]. split; [ exact B2 | ]. split; [ rewrite S1, S2; reflexivity | ]. intro message.
  destruct (sign_lookups xof XOF leak1 message L1 B1) as (t & sig & E1 & _ & K1).
  destruct (sign_lookups xof XOF leak2 message L2 B2) as (t' & sig' & E2 & _ & K2).
  exists t, sig, t', sig'. split; [ exact E1 | ]. split; [ exact E2 | ]. intros <-. rewrite K1 in K2. clear - K2 S1 S2.
  apply (f_equal (fun l => nth 0 l 0)) in K2. rewrite !first_address in K2. unfold key_scalar in K2. rewrite S1, S2 in K2.
  destruct leak_first as (F1 & F2). rewrite F1, F2 in K2. discriminate K2.
Qed.
