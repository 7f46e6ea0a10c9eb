(* How much work signing, derivation and verification do. *)
From Coq Require Import ZArith List Bool Lia.
From Verif Require Import SpecField SpecBytes SpecScalar SpecCurve SpecDecode SpecEd448 Base Arith Bytes Constants32 BigNumber ScalarModel
  Niels CombTable WnafTable Errors ExtendedPoint Eddsa Goldilocks Cost SpecCost.
From Verif Require Import ScalarProofs PointMul CombMul BaseTables Recode DoubleMul Ed448.
From Verif Require TraceProofs SpecInternal.
Import ListNotations.
Open Scope Z_scope.

(* forgetting the counts gives the function *)
Definition value {A : Type} (x : counted A) : option A := match x with Some (_, a) => Some a | None => None end.
Lemma value_quiet : forall (A : Type) (o : option A), value (quiet o) = o.
Proof. intros A [a|]; reflexivity. Qed.
Lemma value_count : forall (A : Type) e (o : option A), value (count e o) = o.
Proof. intros A e [a|]; reflexivity. Qed.
Lemma value_bind : forall (A B : Type) (x : counted A) (f : A -> counted B) o (g : A -> option B),
  value x = o -> (forall a, value (f a) = g a) -> value (cbind x f) = bind o g.
Proof.
  intros A B [(t, a)|] f o g <- H; [ | reflexivity ]. cbn [value bind cbind]. rewrite <- H. destruct (f a) as [(t', b)|]; reflexivity.
Qed.
Lemma value_q : forall (A B : Type) (x : option A) (f : A -> counted B) (g : A -> option B),
  (forall a, value (f a) = g a) -> value (cbind (quiet x) f) = bind x g.
Proof. intros A B x f g H. apply value_bind; [ apply value_quiet | exact H ]. Qed.
Lemma value_c : forall (A B : Type) e (x : option A) (f : A -> counted B) (g : A -> option B),
  (forall a, value (f a) = g a) -> value (cbind (count e x) f) = bind x g.
Proof. intros A B e x f g H. apply value_bind; [ apply value_count | exact H ]. Qed.
Ltac val := repeat match goal with
  | |- value (quiet _) = _ => apply value_quiet
  | |- value (count _ _) = _ => apply value_count
  | |- value (cbind (quiet _) _) = _ => apply value_q; intro
  | |- value (cbind (count _ _) _) = _ => apply value_c; intro
  end.

Lemma window_loop_v : forall n p st, value (c_window_loop n p st) = window_loop n p st.
Proof.
  induction n as [|n IH]; intros p st; [ reflexivity | ]. cbn [c_window_loop window_loop]. unfold c_padd. apply value_c. intro a. apply value_q. intro b.
  apply value_bind; [ apply IH | ]. intro c. apply value_quiet.
Qed.
Lemma prepare_v : forall p, value (c_prepare_fixed_window p) = prepare_fixed_window p.
Proof.
  intro p. unfold c_prepare_fixed_window, prepare_fixed_window, c_double. apply value_c. intro a. apply value_q. intro b. apply value_q. intro c.
  apply value_bind; [ apply window_loop_v | ]. intro r. apply value_quiet.
Qed.
Lemma double5_v : forall p, value (c_double5 p) = double5 p.
Proof. intro p. unfold c_double5, double5, c_double. val. Qed.
Lemma scalar_mul_loop_v : forall fuel s m i out, value (c_scalar_mul_loop fuel s m i out) = scalar_mul_loop fuel s m i out.
Proof.
  induction fuel as [|f IH]; intros s m i out; cbn [c_scalar_mul_loop scalar_mul_loop]; destruct (i >=? 0); try reflexivity.
  apply value_q. intros (bits, inv). apply value_q. intro e. apply value_q. intro n. cbv zeta. apply value_bind; [ | intro o; apply IH ].
  destruct out as [o|]; [ apply value_bind; [ apply double5_v | intro; apply value_count ] | apply value_quiet ].
Qed.
Lemma point_scalar_mul_v : forall p s, value (c_point_scalar_mul p s) = point_scalar_mul p s.
Proof.
  intros p s. unfold c_point_scalar_mul, point_scalar_mul. apply value_q. intro a. cbv zeta. apply value_bind; [ apply prepare_v | ]. intro m.
  apply value_bind; [ apply scalar_mul_loop_v | ]. intros [o|]; reflexivity.
Qed.
Lemma wnaf_loop_v : forall n p st, value (c_wnaf_loop n p st) = wnaf_loop n p st.
Proof.
  induction n as [|n IH]; intros p st; [ reflexivity | ]. cbn [c_wnaf_loop wnaf_loop]. unfold c_padd. apply value_c. intro a. apply value_q. intro b.
  apply value_bind; [ apply IH | ]. intro c. apply value_quiet.
Qed.
Lemma wnaf_table_v : forall p, value (c_decaf_prepare_wnaf_table p) = decaf_prepare_wnaf_table p.
Proof.
  intro p. unfold c_decaf_prepare_wnaf_table, decaf_prepare_wnaf_table, c_double, c_padd. apply value_q. intro a. apply value_c. intro b. apply value_q. intro c.
  apply value_c. intro d. apply value_q. intro e. apply value_bind; [ apply wnaf_loop_v | ]. intro r. apply value_quiet.
Qed.
Lemma var_step_v : forall cv cp i c t out, value (c_var_step cv cp i c t out) = var_step cv cp i c t out.
Proof. intros. unfold c_var_step, var_step, c_padd, c_psub. destruct cv; [ | reflexivity ]. destruct (addend c >? 0); val. Qed.
Lemma pre_step_v : forall cp i c out, value (c_pre_step cp i c out) = pre_step cp i c out.
Proof. intros. unfold c_pre_step, pre_step, c_add, c_sub. destruct cp; [ | reflexivity ]. destruct (addend c >? 0); val. Qed.
Lemma double_mul_loop_v : forall fuel Cv Cp t i cv cp out, value (c_double_mul_loop fuel Cv Cp t i cv cp out) = double_mul_loop fuel Cv Cp t i cv cp out.
Proof.
  induction fuel as [|f IH]; intros Cv Cp t i cv cp out; cbn [c_double_mul_loop double_mul_loop]; destruct (i >=? 0); try reflexivity.
  apply value_q. intro a. apply value_q. intro b. cbv zeta. unfold c_double. apply value_c. intro c.
  apply value_bind; [ apply var_step_v | ]. intro d. apply value_bind; [ apply pre_step_v | ]. intro e. apply IH.
Qed.
Lemma double_scalamul_v : forall p a b, value (c_point_double_scalamul_non_secret p a b) = point_double_scalamul_non_secret p a b.
Proof.
  intros p a b. unfold c_point_double_scalamul_non_secret, point_double_scalamul_non_secret. cbv zeta. apply value_q. intros (C1, r1). apply value_q. intros (C2, r2).
  apply value_bind; [ apply wnaf_table_v | ]. intro t. apply value_q. intro c1. apply value_q. intro c2. cbv zeta.
  apply value_bind.
  - destruct (_ >? _); [ val | ]. destruct (_ && _); [ | val ]. unfold c_add. val.
  - intros (((o, i), x), y). destruct (i <? 0); [ reflexivity | apply double_mul_loop_v ].
Qed.
Lemma decode_v : forall src, value (c_eddsa_like_decode src) = eddsa_like_decode src.
Proof.
  intro src. unfold c_eddsa_like_decode, eddsa_like_decode. destruct (negb _); [ reflexivity | ].
  apply value_q. intro s56. cbv zeta. apply value_q. intro s. apply value_q. intros (y, u). do 6 (apply value_q; intro). do 3 (apply value_q; intro).
  apply value_q. intro ok. destruct (_ || _); [ reflexivity | ]. apply value_bind; [ apply point_scalar_mul_v | ]. intro r. reflexivity.
Qed.
Lemma comb_inner_v : forall n j s i p, value (c_comb_inner n j s i p) = comb_inner n j s i p.
Proof.
  induction n as [|n IH]; intros j s i p; [ reflexivity | ]. cbn [c_comb_inner comb_inner]. apply value_q. intro tab. cbv zeta. apply value_q. intro np. apply value_q. intro nq.
  apply value_bind; [ destruct (_ || _); unfold c_add; val | intro x; apply IH ].
Qed.
Lemma comb_outer_v : forall n s p, value (c_comb_outer n s p) = comb_outer n s p.
Proof.
  induction n as [|n IH]; intros s p; [ reflexivity | ]. cbn [c_comb_outer comb_outer]. cbv zeta. apply value_bind; [ destruct (negb _); unfold c_double; val | ].
  intro x. apply value_bind; [ apply comb_inner_v | ]. intro y. apply IH.
Qed.
Lemma precomputed_v : forall s, value (c_precomputed_scalar_mul s) = precomputed_scalar_mul s.
Proof. intro s. unfold c_precomputed_scalar_mul, precomputed_scalar_mul. apply value_q. intro a. cbv zeta. apply comb_outer_v. Qed.
Lemma point_by_secret_v : forall k, value (c_point_by_secret k) = point_by_secret k.
Proof. intro k. unfold c_point_by_secret, point_by_secret. apply value_q. intro a. apply value_q. intro b. cbv zeta. apply precomputed_v. Qed.
Lemma secret_to_public_v : forall k, value (c_secret_to_public k) = secret_to_public k.
Proof. intro k. unfold c_secret_to_public, secret_to_public. apply value_bind; [ apply point_by_secret_v | ]. intro h. apply value_quiet. Qed.
Section Value.
Variable xof : list Z -> nat -> list Z.
Lemma value_h : forall (B : Type) e x (f : list Z -> counted B) o, value (f x) = o -> value (cbind (count e (Some x)) f) = o.
Proof. intros B e x f o <-. unfold cbind, count. destruct (f x) as [(t, b)|]; reflexivity. Qed.
Lemma private_to_public_v : forall k, value (c_private_to_public xof k) = private_to_public xof k.
Proof.
  intro k. unfold c_private_to_public, private_to_public. apply value_bind; [ | intro s; apply secret_to_public_v ].
  unfold c_private_to_secret, private_to_secret, c_sha3. cbv zeta. apply value_h. val.
Qed.
Lemma derive_v : forall k, value (c_ed448_derive_public xof k) = ed448_derive_public xof k.
Proof.
  intro k. unfold c_ed448_derive_public, ed448_derive_public. apply value_q. intro b. destruct (_ =? _); [ apply private_to_public_v | apply secret_to_public_v ].
Qed.
Lemma sign_tail_v : forall a b c d, value (c_sign_tail xof a b c d) = sign_tail xof a b c d.
Proof.
  intros a b c d. unfold c_sign_tail, sign_tail, c_hash_with_dom. cbv zeta. apply value_h. apply value_q. intro r.
  apply value_bind; [ apply precomputed_v | ]. intro np. apply value_q. intro e. apply value_q. intro f. apply value_h. val.
Qed.
Lemma sign_v : forall k m, value (c_ed448_sign xof k m) = ed448_sign xof k m.
Proof.
  intros k m. unfold c_ed448_sign, ed448_sign. apply value_q. intro b. destruct (_ =? _).
  - unfold c_sign_by_private, sign_by_private, c_sha3. cbv zeta. apply value_h. do 4 (apply value_q; intro). apply value_bind; [ apply point_by_secret_v | ]. intro p. apply sign_tail_v.
  - apply value_q. intro d. unfold c_sign_with_secret_and_nonce, sign_with_secret_and_nonce. do 2 (apply value_q; intro).
    apply value_bind; [ apply point_by_secret_v | ]. intro p. apply sign_tail_v.
Qed.
Lemma dsa_verify_v : forall pub sig m, value (c_dsa_verify xof pub sig m) = dsa_verify xof pub sig m.
Proof.
  intros pub sig m. unfold c_dsa_verify, dsa_verify. apply value_bind; [ apply decode_v | ]. intros [p|[]]; try reflexivity.
  apply value_bind; [ apply point_scalar_mul_v | ]. intro p2. apply value_q. intro s1. apply value_q. intro s2.
  apply value_bind; [ apply decode_v | ]. intros [r|[]]; try reflexivity.
  apply value_bind; [ apply point_scalar_mul_v | ]. intro r2. apply value_q. intro e. cbv zeta. unfold c_hash_with_dom. apply value_h. do 3 (apply value_q; intro).
  apply value_bind; [ apply double_scalamul_v | ]. intro x. val.
Qed.
Lemma verify_v : forall pub sig m, value (c_ed448_verify xof pub sig m) = ed448_verify xof pub sig m.
Proof. intros pub sig m. unfold c_ed448_verify, ed448_verify. destruct (_ || _); [ reflexivity | apply dsa_verify_v ]. Qed.
End Value.

(* counts *)
Lemma doublings_app : forall t u, doublings (t ++ u) = (doublings t + doublings u)%nat.
Proof. intros. unfold doublings. rewrite filter_app, app_length. reflexivity. Qed.
Lemma additions_app : forall t u, additions (t ++ u) = (additions t + additions u)%nat.
Proof. intros. unfold additions. rewrite filter_app, app_length. reflexivity. Qed.
Lemma hashings_app : forall t u, hashings (t ++ u) = hashings t ++ hashings u.
Proof. intros. unfold hashings. apply flat_map_app. Qed.
Definition tot (t : list op) (d a : nat) (h : list (nat * nat)) : Prop := doublings t = d /\ additions t = a /\ hashings t = h.
Lemma tot_app : forall t u d a h d' a' h', tot t d a h -> tot u d' a' h' -> tot (t ++ u) (d + d') (a + a') (h ++ h').
Proof. intros t u d a h d' a' h' (<- & <- & <-) (<- & <- & <-). split; [ apply doublings_app | split; [ apply additions_app | apply hashings_app ] ]. Qed.
(* what holds of the trace and the result, if there is one *)
Definition post {A : Type} (x : counted A) (P : list op -> A -> Prop) : Prop := match x with Some (t, a) => P t a | None => True end.
Lemma post_bind : forall (A B : Type) (x : counted A) (f : A -> counted B) P Q,
  post x P -> (forall t a, P t a -> post (f a) (fun u b => Q (t ++ u) b)) -> post (cbind x f) Q.
Proof.
  intros A B [(t, a)|] f P Q H K; [ | exact I ]. specialize (K t a H). cbn [cbind]. destruct (f a) as [(u, b)|]; [ exact K | exact I ].
Qed.
Lemma post_quiet : forall (A : Type) (o : option A) (Q : list op -> A -> Prop), (forall a, o = Some a -> Q [] a) -> post (quiet o) Q.
Proof. intros A [a|] Q H; [ apply H; reflexivity | exact I ]. Qed.
(* a computation with fixed counts *)
Definition cost {A : Type} (x : counted A) (d a : nat) (h : list (nat * nat)) : Prop := post x (fun t _ => tot t d a h).
Lemma cost_bind : forall (A B : Type) (x : counted A) (f : A -> counted B) d a h d' a' h',
  cost x d a h -> (forall v, value x = Some v -> cost (f v) d' a' h') -> cost (cbind x f) (d + d') (a + a') (h ++ h').
Proof.
  intros A B [(t, v)|] f d a h d' a' h' H K; [ | exact I ]. specialize (K v eq_refl). unfold cost, post in *. cbn [cbind] in *.
  destruct (f v) as [(u, b)|]; [ apply tot_app; assumption | exact I ].
Qed.
Lemma cost_quiet : forall (A : Type) (o : option A), cost (quiet o) 0 0 [].
Proof. intros A [a|]; [ repeat split | exact I ]. Qed.
Lemma cost_q : forall (A B : Type) (o : option A) (f : A -> counted B) d a h,
  (forall v, o = Some v -> cost (f v) d a h) -> cost (cbind (quiet o) f) d a h.
Proof. intros A B o f d a h H. apply (cost_bind A B _ _ 0 0 []); [ apply cost_quiet | ]. intros v E. rewrite value_quiet in E. apply H. exact E. Qed.
Lemma cost_double : forall p b, cost (c_double p b) 1 0 [].
Proof. intros p b. unfold c_double. destruct (double_internal p b); [ repeat split | exact I ]. Qed.
Lemma cost_one : forall (A : Type) (o : option A), cost (count Addition o) 0 1 [].
Proof. intros A [a|]; [ repeat split | exact I ]. Qed.
Lemma cost_h : forall (B : Type) n m x (f : list Z -> counted B) d a h, cost (f x) d a h ->
  cost (cbind (count (Hashing n m) (Some x)) f) d a ((n, m) :: h).
Proof.
  intros B n m x f d a h H. apply (cost_bind (list Z) B _ _ 0 0 [(n, m)]); [ repeat split | ]. intros v E. unfold value, count in E. injection E as <-. exact H.
Qed.
Lemma cost_eq : forall (A : Type) (x : counted A) d a h d' a' h', cost x d a h -> d = d' -> a = a' -> h = h' -> cost x d' a' h'.
Proof. intros A x d a h d' a' h' H <- <- <-. exact H. Qed.

Lemma window_loop_c : forall n p st, cost (c_window_loop n p st) 0 n [].
Proof.
  induction n as [|n IH]; intros p st; [ apply cost_quiet | ]. cbn [c_window_loop]. apply (cost_bind _ _ _ _ 0 1 [] 0 n []); [ apply cost_one | ].
  intros a _. apply cost_q. intros b _. eapply cost_eq; [ eapply (cost_bind _ _ _ _ 0 n [] 0 0 []); [ apply IH | ] | | | ]; [ | lia | lia | reflexivity ].
  intros c _. apply cost_quiet.
Qed.
Lemma prepare_c : forall p, cost (c_prepare_fixed_window p) 1 15 [].
Proof.
  intro p. unfold c_prepare_fixed_window. apply (cost_bind _ _ _ _ 1 0 [] 0 15 []); [ apply cost_double | ]. intros a _. apply cost_q. intros b _. apply cost_q. intros c _.
  apply (cost_bind _ _ _ _ 0 15 [] 0 0 []); [ apply window_loop_c | ]. intros r _. apply cost_quiet.
Qed.
Lemma double5_c : forall p, cost (c_double5 p) 5 0 [].
Proof.
  intro p. unfold c_double5. apply (cost_bind _ _ _ _ 1 0 [] 4 0 []); [ apply cost_double | ]. intros a _.
  apply (cost_bind _ _ _ _ 1 0 [] 3 0 []); [ apply cost_double | ]. intros b _. apply (cost_bind _ _ _ _ 1 0 [] 2 0 []); [ apply cost_double | ]. intros c _.
  apply (cost_bind _ _ _ _ 1 0 [] 1 0 []); [ apply cost_double | ]. intros d _. apply cost_double.
Qed.
Lemma scalar_mul_loop_c : forall n fuel s m o, (n <= fuel)%nat -> cost (c_scalar_mul_loop fuel s m (5 * Z.of_nat n - 5) (Some o)) (5 * n) n [].
Proof.
  induction n as [|n IH]; intros fuel s m o HF.
  - destruct fuel; apply (cost_quiet (option point) (Some (Some o))).
  - destruct fuel as [|f]; [ lia | ]. cbn [c_scalar_mul_loop]. destruct (Z.geb_spec (5 * Z.of_nat (S n) - 5) 0); [ | lia ].
    apply cost_q. intros (bits, inv) _. apply cost_q. intros e _. apply cost_q. intros k _. cbv zeta.
    replace (5 * S n)%nat with (5 + 5 * n)%nat by lia. apply (cost_bind _ _ _ _ 5 1 [] (5 * n) n []).
    + apply (cost_bind _ _ _ _ 5 0 [] 0 1 []); [ apply double5_c | ]. intros x _. apply cost_one.
    + intros x _. replace (5 * Z.of_nat (S n) - 5 - 5) with (5 * Z.of_nat n - 5) by lia. apply IH. lia.
Qed.
Lemma point_scalar_mul_c : forall p s, cost (c_point_scalar_mul p s) 446 104 [].
Proof.
  intros p s. unfold c_point_scalar_mul. apply cost_q. intros a _. cbv zeta. apply (cost_bind _ _ _ _ 1 15 [] 445 89 []); [ apply prepare_c | ]. intros m _.
  apply (cost_bind _ _ _ _ 445 89 [] 0 0 []); [ | intros [o|] _; apply cost_quiet ].
  change (SCALAR_BITS - (SCALAR_BITS - 1) mod 5 - 1) with 445. 
  assert (E : forall f h, c_scalar_mul_loop (S f) h m 445 None =
    (digit <~ quiet (window_digit h 445) ;; let '(bits, inv) := digit in
     e <~ quiet (znth m (Z.land bits 15)) ;; n <~ quiet (niels_conditional_negate (pn e) inv) ;;
     out' <~ quiet (pniels_to_extended (PNiels n (pnz e))) ;; c_scalar_mul_loop f h m (445 - 5) (Some out'))) by reflexivity.
  rewrite (E 99%nat). clear E. apply cost_q. intros (bits, inv) _. apply cost_q. intros e _. apply cost_q. intros k _. apply cost_q. intros o _.
  change (445 - 5) with (5 * Z.of_nat 89 - 5). apply (scalar_mul_loop_c 89). lia.
Qed.
Lemma wnaf_loop_c : forall n p st, cost (c_wnaf_loop n p st) 0 n [].
Proof.
  induction n as [|n IH]; intros p st; [ apply cost_quiet | ]. cbn [c_wnaf_loop]. apply (cost_bind _ _ _ _ 0 1 [] 0 n []); [ apply cost_one | ].
  intros a _. apply cost_q. intros b _. eapply cost_eq; [ eapply (cost_bind _ _ _ _ 0 n [] 0 0 []); [ apply IH | ] | | | ]; [ | lia | lia | reflexivity ].
  intros c _. apply cost_quiet.
Qed.
Lemma wnaf_table_c : forall p, cost (c_decaf_prepare_wnaf_table p) 1 7 [].
Proof.
  intro p. unfold c_decaf_prepare_wnaf_table. apply cost_q. intros a _. apply (cost_bind _ _ _ _ 1 0 [] 0 7 []); [ apply cost_double | ]. intros b _. apply cost_q. intros c _.
  apply (cost_bind _ _ _ _ 0 1 [] 0 6 []); [ apply cost_one | ]. intros d _. apply cost_q. intros e _.
  apply (cost_bind _ _ _ _ 0 6 [] 0 0 []); [ apply wnaf_loop_c | ]. intros r _. apply cost_quiet.
Qed.
Definition b2n (b : bool) : nat := if b then 1%nat else 0%nat.
Lemma var_step_c : forall cv cp i c t out, cost (c_var_step cv cp i c t out) 0 (b2n cv) [].
Proof.
  intros. unfold c_var_step. destruct cv; [ | apply cost_quiet ]. destruct (addend c >? 0); repeat (apply cost_q; intros ? _); apply cost_one.
Qed.
Lemma pre_step_c : forall cp i c out, cost (c_pre_step cp i c out) 0 (b2n cp) [].
Proof.
  intros. unfold c_pre_step. destruct cp; [ | apply cost_quiet ]. destruct (addend c >? 0); repeat (apply cost_q; intros ? _); apply cost_one.
Qed.
Lemma stream_count : forall tb i C cont ds, 0 <= tb -> 0 <= i -> stream tb i C cont ds ->
  exists c ds', znth C cont = Some c /\ stream tb (i - 1) C (if i =? power c then cont + 1 else cont) ds' /\
    length ds = (b2n (i =? power c)%Z + length ds')%nat.
Proof.
  intros tb i C cont ds Ht Hi ((pre & rest & EC & Ec) & HF & HS & HP).
  destruct ds as [|d t].
  - exists wnaf_end, []. assert (E : (i =? power wnaf_end) = false) by (apply Z.eqb_neq; unfold wnaf_end; cbn [power]; lia).
    rewrite E. split; [ rewrite EC, Ec; apply znth_app_r | ].
    split; [ | reflexivity ]. split; [ exists pre, rest; split; [ exact EC | exact Ec ] | ].
    split; [ constructor | ]. split; exact I.
  - cbn [spaced] in HS. destruct HS as (S0 & S1 & S2). inversion HF as [|? ? D1 D2]; subst.
    destruct (Z.eqb_spec i (power d)) as [E|E].
    + exists d, t. rewrite (proj2 (Z.eqb_eq _ _) E). split; [ apply (znth_app_r _ pre (t ++ wnaf_end :: rest) d) | ].
      split; [ | reflexivity ].
      split; [ exists (pre ++ [d]), rest; split; [ rewrite <- app_assoc; reflexivity | rewrite app_length; cbn [length]; lia ] | ].
      split; [ exact D2 | ]. split; [ exact S2 | ]. destruct t; [ exact I | lia ].
    + exists d, (d :: t). rewrite (proj2 (Z.eqb_neq _ _) E). split; [ apply (znth_app_r _ pre (t ++ wnaf_end :: rest) d) | ].
      split; [ | reflexivity ].
      split; [ exists pre, rest; split; reflexivity | ]. split; [ exact HF | ]. split; [ cbn [spaced]; auto | lia ].
Qed.
Lemma double_mul_loop_c : forall fuel Cv Cp tbl i contv contp dv dp out, -1 <= i -> (Z.to_nat (i + 1) <= fuel)%nat ->
  stream 3 i Cv contv dv -> stream 5 i Cp contp dp ->
  cost (c_double_mul_loop fuel Cv Cp tbl i contv contp out) (Z.to_nat (i + 1)) (length dv + length dp) [].
Proof.
  induction fuel as [|f IH]; intros Cv Cp tbl i contv contp dv dp out Hi Hf Sv Sp.
  - assert (i = -1) by lia. subst i. rewrite (stream_end _ _ _ _ Sv), (stream_end _ _ _ _ Sp). apply (cost_quiet point (Some out)).
  - cbn [c_double_mul_loop]. destruct (Z.geb_spec i 0) as [Hi0|Hi0].
    + destruct (stream_count 3 i Cv contv dv ltac:(lia) Hi0 Sv) as (c_v & dv' & E1 & S1 & V1).
      destruct (stream_count 5 i Cp contp dp ltac:(lia) Hi0 Sp) as (c_p & dp' & E2 & S2 & V2).
      rewrite E1, E2. apply cost_q. intros c0 E0. apply TraceProofs.inj_some in E0. subst c0. apply cost_q. intros c0 E0. apply TraceProofs.inj_some in E0. subst c0. cbv zeta.
      replace (Z.to_nat (i + 1)) with (1 + Z.to_nat i)%nat by lia.
      replace (length dv + length dp)%nat with (0 + (b2n (i =? power c_v)%Z + (b2n (i =? power c_p)%Z + (length dv' + length dp'))))%nat by lia.
      set (nv := b2n (i =? power c_v)). set (np := b2n (i =? power c_p)). set (m := (length dv' + length dp')%nat).
      apply (cost_bind _ _ _ _ 1 0 [] (Z.to_nat i) (nv + (np + m)) []); [ apply cost_double | ]. intros o1 _.
      apply (cost_bind _ _ _ _ 0 nv [] (Z.to_nat i) (np + m) []); [ apply var_step_c | ]. intros o2 _.
      apply (cost_bind _ _ _ _ 0 np [] (Z.to_nat i) m []); [ apply pre_step_c | ]. intros o3 _.
      replace (Z.to_nat i) with (Z.to_nat (i - 1 + 1)) by (f_equal; lia). apply IH; try assumption; lia.
    + assert (i = -1) by lia. subst i. rewrite (stream_end _ _ _ _ Sv), (stream_end _ _ _ _ Sp). apply (cost_quiet point (Some out)).
Qed.
(* the double multiplication: bounds from the distance of the digits *)
Definition wide (t : list op) : Prop := (1 <= doublings t <= 447)%nat /\ (7 <= additions t <= 160)%nat /\ hashings t = [].
Lemma post_weaken : forall (A : Type) (x : counted A) (P Q : list op -> A -> Prop), post x P -> (forall t a, P t a -> Q t a) -> post x Q.
Proof. intros A [(t, a)|] P Q H K; [ apply K; exact H | exact I ]. Qed.
Lemma wide_rest : forall t u d a, tot t 1 7 [] -> tot u d a [] -> (d <= 446)%nat -> (a <= 153)%nat -> wide (t ++ u).
Proof.
  intros t u d a H K Hd Ha. destruct (tot_app _ _ _ _ _ _ _ _ H K) as (E1 & E2 & E3). split; [ lia | ]. split; [ lia | exact E3 ].
Qed.
Lemma digit_count : forall tb S ds, 0 <= tb -> wnaf_list tb S ds -> (tb + 2) * (Z.of_nat (length ds) - 1) <= 446.
Proof.
  intros tb S ds Ht (_ & HS & _ & HP). pose proof (spaced_len (tb + 2) ds ltac:(lia) HS) as L. destruct ds as [|d t]; [ cbn [length]; lia | ].
  destruct HP as (HP & _). cbn [length]. lia.
Qed.
Lemma cost_post : forall (A : Type) (x : counted A) d a h, cost x d a h -> post x (fun t _ => tot t d a h).
Proof. intros A x d a h H. exact H. Qed.
Lemma post_known : forall (A B : Type) (o : option A) (f : A -> counted B) v Q, o = Some v -> post (f v) Q -> post (cbind (quiet o) f) Q.
Proof. intros A B o f v Q -> H. unfold cbind, quiet. destruct (f v) as [(u, b)|]; [ exact H | exact I ]. Qed.
Lemma post_q : forall (A B : Type) (o : option A) (f : A -> counted B) Q, (forall v, o = Some v -> post (f v) Q) -> post (cbind (quiet o) f) Q.
Proof. intros A B [v|] f Q H; [ exact (post_known A B _ f v Q eq_refl (H v eq_refl)) | exact I ]. Qed.
(* state before the loop: bit position and places in the two digit arrays *)
Definition starts (n : nat) (i x y : Z) (u : list op) (st : point * Z * Z * Z) : Prop :=
  tot u 0 n [] /\ snd (fst (fst st)) = i /\ snd (fst st) = x /\ snd st = y.
Lemma finish : forall t Cv Cp tbl start i contv contp dv dp n, tot t 1 7 [] -> 0 <= i <= 446 ->
  stream 3 (i - 1) Cv contv dv -> stream 5 (i - 1) Cp contp dp -> (n + (length dv + length dp) <= 153)%nat ->
  post start (starts n i contv contp) ->
  post (start' <~ start ;; let '(out, i', contv', contp') := start' in
        if i' <? 0 then quiet (Some identity_point) else c_double_mul_loop 500 Cv Cp tbl (i' - 1) contv' contp' out) (fun u _ => wide (t ++ u)).
Proof.
  intros t Cv Cp tbl start i contv contp dv dp n HT Hi Sv Sp HN HS.
  apply (post_bind _ _ _ _ _ _ HS). intros u (((o, i'), x), y) (HU & E1 & E2 & E3). cbn [fst snd] in E1, E2, E3. subst i' x y.
  destruct (Z.ltb_spec i 0); [ lia | ].
  pose proof (double_mul_loop_c 500 Cv Cp tbl (i - 1) contv contp dv dp o ltac:(lia) ltac:(lia) Sv Sp) as HL.
  apply (post_weaken _ _ _ _ (cost_post _ _ _ _ _ HL)). intros w b HW. apply (wide_rest t (u ++ w) _ _ HT (tot_app _ _ _ _ _ _ _ _ HU HW)); lia.
Qed.
Lemma double_scalamul_c : forall p sp sv, wf sp -> v32 sp <= 2 ^ 446 -> wf sv -> v32 sv <= 2 ^ 446 ->
  post (c_point_double_scalamul_non_secret p sp sv) (fun t _ => wide t).
Proof.
  intros p sp sv Wp Bp Wv Bv. unfold c_point_double_scalamul_non_secret. cbv zeta.
  destruct (recode_ok (repeat smvt_new 77) sp 5 ltac:(lia) Wp Bp) as (dp & rp & r1 & E1 & L1).
  { rewrite repeat_length. vm_compute. lia. }
  destruct (recode_ok (repeat smvt_new 115) sv 3 ltac:(lia) Wv Bv) as (dv & rv & r2 & E2 & L2).
  { rewrite repeat_length. vm_compute. lia. }
  apply (post_known _ _ _ _ _ _ E1). apply (post_known _ _ _ _ _ _ E2). clear E1 E2.
  pose proof (digit_count 5 _ dp ltac:(lia) L1) as N1. pose proof (digit_count 3 _ dv ltac:(lia) L2) as N2.
  pose proof L1 as (_ & P1 & _ & T1). pose proof L2 as (_ & P2 & _ & T2).
  eapply post_bind; [ apply cost_post; apply wnaf_table_c | ]. cbv beta. intros t tbl HT.
  assert (Z0 : tot [] 0 0 []) by (repeat split).
  destruct dv as [|cv tv]; destruct dp as [|cp tp]; cbn [length] in N1, N2; cbn [spaced] in P1, P2.
  - apply (post_known _ _ _ _ wnaf_end _ eq_refl). apply (post_known _ _ _ _ wnaf_end _ eq_refl).
    change (power wnaf_end) with (-1). cbv zeta. cbn [Z.gtb Z.compare Z.opp CompOpp Pos.compare Pos.compare_cont Z.eqb Pos.eqb Z.geb andb].
    apply (post_bind _ _ _ _ (starts 0 (-1) 0 1)).
    + apply post_q. intros nn _. apply post_q. intros o _. apply post_quiet. intros st E. apply TraceProofs.inj_some in E. subst st. repeat split.
    + intros u (((o, i), x), y) (HU & E1 & E2 & E3). cbn [fst snd] in E1, E2, E3. subst i x y. change (-1 <? 0) with true.
      apply post_quiet. intros st _. rewrite app_nil_r. apply (wide_rest t u 0 0 HT HU); lia.
  - apply (post_known _ _ _ _ wnaf_end _ eq_refl). apply (post_known _ _ _ _ cp _ eq_refl). change (power wnaf_end) with (-1). cbv zeta.
    destruct (Z.gtb_spec (-1) (power cp)); [ lia | ]. destruct (Z.eqb_spec (-1) (power cp)); [ lia | ]. cbn [andb].
    apply (finish t _ _ tbl _ (power cp) 0 1 [] tp 0 HT ltac:(lia)); [ | | cbn [length]; lia | ].
    + apply (stream_start _ _ _ _ _ L2). exact I.
    + apply (stream_tail _ _ _ _ _ L1). lia.
    + apply post_q. intros nn _. apply post_q. intros o _. apply post_quiet. intros st E. apply TraceProofs.inj_some in E. subst st. repeat split.
  - apply (post_known _ _ _ _ cv _ eq_refl). apply (post_known _ _ _ _ wnaf_end _ eq_refl). change (power wnaf_end) with (-1). cbv zeta.
    destruct (Z.gtb_spec (power cv) (-1)); [ | lia ].
    apply (finish t _ _ tbl _ (power cv) 1 0 tv [] 0 HT ltac:(lia)); [ | | cbn [length]; lia | ].
    + apply (stream_tail _ _ _ _ _ L2). lia.
    + apply (stream_start _ _ _ _ _ L1). exact I.
    + apply post_q. intros nn _. apply post_q. intros o _. apply post_quiet. intros st E. apply TraceProofs.inj_some in E. subst st. repeat split.
  - apply (post_known _ _ _ _ cv _ eq_refl). apply (post_known _ _ _ _ cp _ eq_refl). cbv zeta.
    destruct (Z.gtb_spec (power cv) (power cp)); [ | destruct (Z.eqb_spec (power cv) (power cp)) as [EP|EP] ].
    + apply (finish t _ _ tbl _ (power cv) 1 0 tv (cp :: tp) 0 HT ltac:(lia)); [ | | cbn [length]; lia | ].
      * apply (stream_tail _ _ _ _ _ L2). lia.
      * apply (stream_start _ _ _ _ _ L1). lia.
      * apply post_q. intros nn _. apply post_q. intros o _. apply post_quiet. intros st E. apply TraceProofs.inj_some in E. subst st. repeat split.
    + destruct (Z.geb_spec (power cv) 0); [ | lia ]. cbn [andb].
      apply (finish t _ _ tbl _ (power cv) 1 1 tv tp 1 HT ltac:(lia)); [ | | lia | ].
      * apply (stream_tail _ _ _ _ _ L2). lia.
      * rewrite EP. apply (stream_tail _ _ _ _ _ L1). lia.
      * apply post_q. intros nn _. apply post_q. intros o _. apply post_q. intros e _.
        apply (post_bind _ _ _ _ (fun u _ => tot u 0 1 [])); [ apply cost_one | ].
        intros u a HU. apply post_quiet. intros st E. apply TraceProofs.inj_some in E. subst st. rewrite app_nil_r. repeat split; apply HU.
    + cbn [andb]. apply (finish t _ _ tbl _ (power cp) 0 1 (cv :: tv) tp 0 HT ltac:(lia)); [ | | cbn [length]; lia | ].
      * apply (stream_start _ _ _ _ _ L2). lia.
      * apply (stream_tail _ _ _ _ _ L1). lia.
      * apply post_q. intros nn _. apply post_q. intros o _. apply post_quiet. intros st E. apply TraceProofs.inj_some in E. subst st. repeat split.
Qed.
(* decoding, fixed-base multiplication, and the three functions *)
Definition decoded (src : list Z) (t : list op) (r : result point error) : Prop :=
  match r with Ok _ => tot t 446 104 [] | Err InvalidLengthError => t = [] /\ length src <> 57%nat | Err _ => t = [] end.
Lemma decode_c : forall src, post (c_eddsa_like_decode src) (decoded src).
Proof.
  intro src. unfold c_eddsa_like_decode. destruct (Z.eqb_spec (Z.of_nat (length src)) 57) as [E57|E57]; cbn [negb]; [ | split; [ reflexivity | lia ] ].
  apply post_q. intros s56 _. cbv zeta. apply post_q. intros s _. apply post_q. intros (y, u) _. do 6 (apply post_q; intros ? _). do 3 (apply post_q; intros ? _).
  apply post_q. intros ok _. destruct (_ || _); [ reflexivity | ]. eapply post_bind; [ apply cost_post; apply point_scalar_mul_c | ].
  cbv beta. intros t a HT. apply post_quiet. intros r E. apply TraceProofs.inj_some in E. subst r. rewrite app_nil_r. exact HT.
Qed.
Lemma comb_inner_c : forall n j s i p, 0 < j \/ i <> 17 -> 0 <= j -> cost (c_comb_inner n j s i p) 0 n [].
Proof.
  induction n as [|n IH]; intros j s i p H Hj; [ apply cost_quiet | ]. cbn [c_comb_inner]. apply cost_q. intros tab _. cbv zeta. apply cost_q. intros np _. apply cost_q. intros nq _.
  change (DECAF_COMB_SPACING - 1) with 17. assert (E : negb (i =? 17) || negb (j =? 0) = true).
  { destruct (Z.eqb_spec i 17); [ | reflexivity ]. destruct (Z.eqb_spec j 0); [ lia | reflexivity ]. }
  rewrite E. apply (cost_bind _ _ _ _ 0 1 [] 0 n []); [ apply cost_one | ]. intros x _. apply IH; lia.
Qed.
Lemma comb_outer_c : forall n s p, (n <= 17)%nat -> cost (c_comb_outer n s p) n (5 * n) [].
Proof.
  induction n as [|n IH]; intros s p Hn; [ apply cost_quiet | ]. cbn [c_comb_outer]. cbv zeta. change (DECAF_COMB_SPACING - 1) with 17.
  destruct (Z.eqb_spec (Z.of_nat n) 17); [ lia | ]. cbn [negb]. replace (5 * S n)%nat with (5 + 5 * n)%nat by lia.
  apply (cost_bind _ _ _ _ 1 0 [] n (5 + 5 * n) []); [ apply cost_double | ]. intros x _.
  apply (cost_bind _ _ _ _ 0 5 [] n (5 * n) []); [ apply comb_inner_c; lia | ]. intros y _. apply IH. lia.
Qed.
Lemma precomputed_c : forall s, cost (c_precomputed_scalar_mul s) 17 89 [].
Proof.
  intro s. unfold c_precomputed_scalar_mul. apply cost_q. intros a _. cbv zeta. generalize (halve a). intro h.
  change (c_comb_outer 18 h point_new) with (p <~ quiet (Some point_new) ;; p <~ c_comb_inner 5 0 h 17 p ;; c_comb_outer 17 h p).
  apply cost_q. intros p _. apply (cost_bind _ _ _ _ 0 4 [] 17 85 []); [ | intros y _; apply (comb_outer_c 17); lia ].
  assert (E : c_comb_inner 5 0 h 17 p =
    (tab <~ quiet (comb_tab 5 0 h 17 0 0) ;;
      let invert := Z.shiftr (as_i32 tab) (DECAF_COMB_TEETH - 1) - 1 in
      let tab := Z.lxor tab (wrap32 invert) in
      let tab := Z.land tab (2 ^ (DECAF_COMB_TEETH - 1) - 1) in
      let index := Z.shiftl 0 (DECAF_COMB_TEETH - 1) + tab in
      np <~ quiet (znth comb_base index) ;;
      np <~ quiet (niels_conditional_negate np (wrap32 invert)) ;;
      p <~ quiet (niels_to_extended np) ;;
      c_comb_inner 4 1 h 17 p)) by reflexivity.
  rewrite E. clear E. apply cost_q. intros tab _. cbv zeta. apply cost_q. intros np _. apply cost_q. intros nq _. apply cost_q. intros o _. apply comb_inner_c; lia.
Qed.
Lemma point_by_secret_c : forall k, cost (c_point_by_secret k) 17 89 [].
Proof. intro k. unfold c_point_by_secret. apply cost_q. intros a _. apply cost_q. intros b _. cbv zeta. apply precomputed_c. Qed.
Lemma secret_to_public_c : forall k, cost (c_secret_to_public k) 17 89 [].
Proof.
  intro k. unfold c_secret_to_public. apply (cost_bind _ _ _ _ 17 89 [] 0 0 []); [ apply point_by_secret_c | ]. intros p _. apply cost_quiet.
Qed.
Section Counts.
Variable xof : list Z -> nat -> list Z.
Hypothesis XOF : is_xof xof.
Lemma derive_c : forall k, length k = 57%nat -> bytes k ->
  cost (c_ed448_derive_public xof k) 17 89 (if enc_sign k then [] else [(57%nat, 57%nat)]).
Proof.
  intros k L B. unfold c_ed448_derive_public. apply cost_q. intros b E. rewrite (TraceProofs.enc_top k L B b E). destruct (enc_sign k); cbn [negb]; [ apply secret_to_public_c | ].
  unfold c_private_to_public. apply (cost_bind _ _ _ _ 0 0 [(57%nat, 57%nat)] 17 89 []); [ | intros s _; apply secret_to_public_c ].
  unfold c_private_to_secret, c_sha3. rewrite L. apply cost_h. apply cost_q. intros x _. apply cost_quiet.
Qed.
Lemma sign_tail_c : forall sec seed p m, length seed = 57%nat ->
  cost (c_sign_tail xof sec seed p m) 17 89 [((67 + length m)%nat, 114%nat); ((124 + length m)%nat, 114%nat)].
Proof.
  intros sec seed p m L. unfold c_sign_tail, c_hash_with_dom. rewrite app_length, L. change (length DOM + (57 + length m))%nat with (67 + length m)%nat.
  apply cost_h. apply cost_q. intros r _. cbv zeta. apply (cost_bind _ _ _ _ 17 89 [] 0 0 [((124 + length m)%nat, 114%nat)]); [ apply precomputed_c | ]. intros np _.
  apply cost_q. intros e E. apply TraceProofs.encode_len in E. apply cost_q. intros f F. apply TraceProofs.encode_len in F. rewrite !app_length, E, F.
  change (length DOM + (57 + (57 + length m)))%nat with (124 + length m)%nat. apply cost_h. do 3 (apply cost_q; intros ? _). apply cost_quiet.
Qed.
Lemma sign_c : forall k m, length k = 57%nat -> bytes k ->
  cost (c_ed448_sign xof k m) 34 178
    ((if enc_sign k then [] else [(57%nat, 114%nat)]) ++ [((67 + length m)%nat, 114%nat); ((124 + length m)%nat, 114%nat)]).
Proof.
  intros k m L B. unfold c_ed448_sign. apply cost_q. intros b E. rewrite (TraceProofs.enc_top k L B b E). destruct (enc_sign k); cbn [negb app].
  - apply cost_q. intros d D. apply TraceProofs.clamp_len in D. unfold c_sign_with_secret_and_nonce. do 2 (apply cost_q; intros ? _).
    apply (cost_bind _ _ _ _ 17 89 [] 17 89 _); [ apply point_by_secret_c | ]. intros p _. apply sign_tail_c. congruence.
  - unfold c_sign_by_private, c_sha3. rewrite L. apply cost_h. do 3 (apply cost_q; intros ? _). apply cost_q. intros s S. apply TraceProofs.slice_len in S.
    apply (cost_bind _ _ _ _ 17 89 [] 17 89 _); [ apply point_by_secret_c | ]. intros p _. apply sign_tail_c. exact S.
Qed.
Definition verified (m : list Z) (t : list op) (r : result bool error) : Prop :=
  match r with
  | Ok _ => (1785 <= doublings t <= 2231)%nat /\ (423 <= additions t <= 576)%nat /\ hashings t = [((124 + length m)%nat, 114%nat)]
  | Err DecodeSignatureError => doublings t = 892%nat /\ additions t = 208%nat /\ hashings t = []
  | Err _ => t = []
  end.
Lemma slice_bytes : forall l a b s, bytes l -> slice l a b = Some s -> bytes s.
Proof.
  intros l a b s H. unfold slice. destruct (_ && _); [ | discriminate ]. intro E. apply TraceProofs.inj_some in E. subst s.
  apply bytes_firstn, bytes_skipn. exact H.
Qed.
Lemma verify_c : forall pub sig m, bytes sig -> post (c_ed448_verify xof pub sig m) (verified m).
Proof.
  intros pub sig m B. unfold c_ed448_verify. destruct (_ || _); [ reflexivity | ]. unfold c_dsa_verify.
  apply (post_bind _ _ _ _ _ _ (decode_c pub)). intros t [p|e] HD.
  2:{ destruct e; try exact I; cbn [decoded] in HD; cbn; [ subst t | destruct HD as (-> & _) ]; reflexivity. }
  cbn [decoded] in HD. apply (post_bind _ _ _ _ _ _ (cost_post _ _ _ _ _ (point_scalar_mul_c p scalar_four))). intros u p2 HU.
  apply post_q. intros s1 E1. apply post_q. intros s2 E2. pose proof (TraceProofs.slice_len _ _ _ _ E1) as L1. pose proof (TraceProofs.slice_len _ _ _ _ E2) as L2.
  pose proof (slice_bytes _ _ _ _ B E2) as B2.
  apply (post_bind _ _ _ _ _ _ (decode_c s1)). intros w [r|e] HW.
  2:{ destruct e; try exact I; cbn [decoded] in HW; [ | destruct HW as (_ & HW); rewrite L1 in HW; exfalso; apply HW; reflexivity ].
      subst w. apply post_quiet. intros x E. apply TraceProofs.inj_some in E. subst x. rewrite !app_nil_r. exact (tot_app _ _ _ _ _ _ _ _ HD HU). }
  cbn [decoded] in HW. apply (post_bind _ _ _ _ _ _ (cost_post _ _ _ _ _ (point_scalar_mul_c r scalar_four))). intros x r2 HX.
  apply post_q. intros e E. apply TraceProofs.encode_len in E. unfold c_hash_with_dom. rewrite !app_length, L1, E.
  change (length DOM + (57 - 0 + (57 + length m)))%nat with (124 + length m)%nat.
  set (ch := hash_with_dom xof (s1 ++ e ++ m) 114). assert (BC : bytes ch /\ length ch = 114%nat) by (split; [ apply (xof_bytes xof XOF) | apply (xof_len xof XOF) ]).
  clearbody ch. destruct BC as (BC & LC).
  apply (post_bind _ _ _ _ (fun v c => tot v 0 0 [((124 + length m)%nat, 114%nat)] /\ c = ch)); [ repeat split | ]. intros v c (HV & ->).
  destruct (decode_long_ok ch BC) as (k & Ek & Rk & _); [ rewrite LC; reflexivity | ]. apply (post_known _ _ _ _ _ _ Ek).
  destruct (ssub_ok SCALAR_ZERO k red_zero Rk) as (k' & Ek' & Rk' & _). apply (post_known _ _ _ _ _ _ Ek').
  destruct (decode_long_ok s2 B2) as (z & Ez & Rz & _); [ rewrite L2; reflexivity | ]. apply (post_known _ _ _ _ _ _ Ez).
  assert (Lim : forall u, red u -> v32 u <= 2 ^ 446) by (intros y (_ & U); unfold q448 in U; lia).
  apply (post_bind _ _ _ _ _ _ (double_scalamul_c p2 z k' (proj1 Rz) (Lim _ Rz) (proj1 Rk') (Lim _ Rk'))). intros y q (Y1 & Y2 & Y3).
  apply post_q. intros b _. apply post_quiet. intros o Eo. apply TraceProofs.inj_some in Eo. subst o. rewrite app_nil_r.
  destruct HD as (D1 & D2 & D3), HU as (U1 & U2 & U3), HW as (W1 & W2 & W3), HX as (X1 & X2 & X3), HV as (V1 & V2 & V3).
  cbn [verified]. rewrite !doublings_app, !additions_app, !hashings_app, D3, U3, W3, X3, V3, Y3. split; [ lia | ]. split; [ lia | reflexivity ].
Qed.
End Counts.

Lemma traced : forall (A : Type) (x : counted A) r P, value x = Some r -> post x P -> exists t, x = Some (t, r) /\ P t r.
Proof. intros A [(t, a)|] r P E H; [ | discriminate E ]. apply TraceProofs.inj_some in E. subst a. exists t. split; [ reflexivity | exact H ]. Qed.
Theorem verify_work : forall xof, is_xof xof -> forall pub sig m r, bytes sig -> ed448_verify xof pub sig m = Some r ->
  exists t, c_ed448_verify xof pub sig m = Some (t, r) /\
  match r with
  | Ok _ => (1785 <= doublings t <= 2231)%nat /\ (423 <= additions t <= 576)%nat /\ hashings t = [((124 + length m)%nat, 114%nat)]
  | Err DecodeSignatureError => doublings t = 892%nat /\ additions t = 208%nat /\ hashings t = []
  | Err _ => t = []
  end.
Proof. intros xof XOF pub sig m r B E. rewrite <- verify_v in E. exact (traced _ _ _ _ E (verify_c xof XOF pub sig m B)). Qed.
Theorem sign_work : forall xof, is_xof xof -> forall k m, length k = 57%nat -> bytes k -> exists t sig,
  c_ed448_sign xof k m = Some (t, sig) /\ ed448_sign xof k m = Some sig /\ doublings t = 34%nat /\ additions t = 178%nat /\
  hashings t = (if enc_sign k then [] else [(57%nat, 114%nat)]) ++ [((67 + length m)%nat, 114%nat); ((124 + length m)%nat, 114%nat)].
Proof.
  intros xof XOF k m L B. destruct (TraceProofs.sign_lookups xof XOF k m L B) as (_ & sig & _ & E & _). pose proof E as E'. rewrite <- sign_v in E'.
  destruct (traced _ _ _ _ E' (cost_post _ _ _ _ _ (sign_c xof k m L B))) as (t & Et & H). exists t, sig. split; [ exact Et | ]. split; [ exact E | exact H ].
Qed.
Theorem derive_work : forall xof, is_xof xof -> forall k, length k = 57%nat -> bytes k -> exists t pub,
  c_ed448_derive_public xof k = Some (t, pub) /\ ed448_derive_public xof k = Some pub /\ doublings t = 17%nat /\ additions t = 89%nat /\
  hashings t = if enc_sign k then [] else [(57%nat, 57%nat)].
Proof.
  intros xof XOF k L B. destruct (TraceProofs.derive_lookups xof XOF k L B) as (_ & pub & _ & E & _). pose proof E as E'. rewrite <- derive_v in E'.
  destruct (traced _ _ _ _ E' (cost_post _ _ _ _ _ (derive_c xof k L B))) as (t & Et & H). exists t, pub. split; [ exact Et | ]. split; [ exact E | exact H ].
Qed.
Lemma value_map : forall (A : Type) (x : counted A), option_map snd x = value x.
Proof. intros A [(t, a)|]; reflexivity. Qed.
Theorem erase : forall xof k m pub sig, option_map snd (c_ed448_sign xof k m) = ed448_sign xof k m /\
  option_map snd (c_ed448_derive_public xof k) = ed448_derive_public xof k /\
  option_map snd (c_ed448_verify xof pub sig m) = ed448_verify xof pub sig m.
Proof. intros. rewrite !value_map. split; [ apply sign_v | split; [ apply derive_v | apply verify_v ] ]. Qed.
(* the bound of 446 doublings in the loop is reached: the first digit of q - 1 *)
Definition top_scalar : scalar := map (fun i => (q448 - 1) / 2 ^ (32 * Z.of_nat i) mod 2 ^ 32) (seq 0 14).
Lemma top_case : SpecInternal.sc top_scalar = q448 - 1 /\ option_map (fun r => nth 0 (fst r) smvt_new) (recode_wnaf (repeat smvt_new 77) top_scalar 5) = Some (Smvt 446 1).
Proof. split; vm_compute; reflexivity. Qed.
