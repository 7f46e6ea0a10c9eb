(* A 32-bit usize is wide enough: the functions of Target32 agree with those of the 64-bit model. *)
From Coq Require Import ZArith List Bool Lia.
From Verif Require Import Base Constants32 Karatsuba32 KaratsubaSquare32 BigNumber ScalarModel Niels CombTable WnafTable Errors.
From Verif Require Import ExtendedPoint Eddsa Goldilocks Lib Arith ReleaseProofs Target32.
Import ListNotations.
Open Scope Z_scope.

Lemma agrees_bind_eq : forall A B (a : option A) (f g : A -> option B), (forall x, a = Some x -> agrees (f x) (g x)) -> agrees (bind a f) (bind a g).
Proof. intros A B [x|] f g K; [ exact (K x eq_refl) | exact (agrees_none _ _) ]. Qed.
Lemma agrees_bind2 : forall A B (a b : option A) (f g : A -> option B), agrees a b -> (forall x, a = Some x -> agrees (f x) (g x)) -> agrees (bind a f) (bind b g).
Proof. intros A B [x|] b f g H K r E; [ | discriminate E ]. rewrite (H x eq_refl). exact (K x eq_refl r E). Qed.
Lemma usize_ag : forall z, z < 2 ^ 32 -> agrees (chk_usize z) (w_chk_usize z).
Proof.
  intros z L r H. apply chk_some in H as (-> & H). unfold w_chk_usize, chk. replace (0 <=? z) with true by (symmetry; apply Z.leb_le; lia).
  replace (z <? 0x100000000) with true by (symmetry; apply Z.ltb_lt; exact L). reflexivity.
Qed.
Lemma usize_some : forall z r, chk_usize z = Some r -> r = z /\ 0 <= z.
Proof. intros z r H. apply chk_some in H as (-> & H). split; [ reflexivity | lia ]. Qed.
Lemma znth_some : forall A (l : list A) i x, znth l i = Some x -> 0 <= i < Z.of_nat (length l).
Proof.
  intros A l i x H. unfold znth in H. destruct (Z.leb_spec 0 i); destruct (Z.ltb_spec i (Z.of_nat (length l))); cbn [andb] in H; try discriminate H. lia.
Qed.
Lemma zupd_some : forall A (l : list A) i v x, zupd l i v = Some x -> 0 <= i < Z.of_nat (length l) /\ length x = length l.
Proof.
  intros A l i v x H. unfold zupd in H. destruct (Z.leb_spec 0 i); destruct (Z.ltb_spec i (Z.of_nat (length l))); cbn [andb] in H; try discriminate H.
  injection H as <-. split; [ lia | ]. generalize (Z.to_nat i). clear. induction l as [ | h t IH ]; intros [ | n ]; cbn [upd_nat length]; auto.
Qed.
Lemma wrap_small : forall a, wrap64 a < 2 ^ 32 -> wrap32 a = wrap64 a.
Proof.
  intros a H. rewrite wrap32_mod. rewrite wrap64_mod in *. rewrite (Znumtheory.Zmod_div_mod (2 ^ 32) (2 ^ 64) a) by (try reflexivity; exists (2 ^ 32); reflexivity).
  apply Z.mod_small. split; [ apply Z.mod_pos_bound; reflexivity | exact H ].
Qed.
Lemma index_ag : forall A (l : list A) a, (Z.of_nat (length l) <= 2 ^ 31) -> agrees (znth l (wrap64 a)) (znth l (wrap32 a)).
Proof. intros A l a L r H. pose proof (znth_some _ _ _ _ H). rewrite wrap_small by lia. exact H. Qed.
Lemma half_ag : forall A (l : list A) a, (Z.of_nat (length l) <= 2 ^ 31) -> agrees (znth l (usize_half a)) (znth l (w_usize_half a)).
Proof.
  intros A l a L r H. pose proof (znth_some _ _ _ _ H) as K. unfold usize_half, w_usize_half in *.
  rewrite wrap_small; [ exact H | ]. rewrite Z.shiftr_div_pow2 in K by discriminate. change (2 ^ 1) with 2 in K.
  pose proof (Z.div_mod (wrap64 a) 2 ltac:(discriminate)). pose proof (Z.mod_pos_bound (wrap64 a) 2 eq_refl). lia.
Qed.

Create HintDb tgt.
Ltac tgt := repeat (cbv beta; lazymatch goal with
  | |- agrees ?a ?a => exact (agrees_refl _ a)
  | |- agrees None _ => exact (agrees_none _ _)
  | |- agrees (let x := ?v in @?f x) (let y := ?v in @?g y) => refine (agrees_let _ _ v f g _); intro
  | |- agrees (bind ?a _) (bind ?a _) => apply agrees_bind_same; intro
  | |- agrees (bind _ _) (bind _ _) => apply agrees_bind; [ | intro ]
  | |- agrees (match ?x with _ => _ end) (match ?x with _ => _ end) => destruct x
  | |- agrees _ _ => solve [ auto with tgt ]
  end).

Lemma square_n_loop_w : forall fuel n y, y < 2 ^ 32 -> agrees (square_n_loop fuel n y) (w_square_n_loop fuel n y).
Proof.
  induction fuel as [ | f IH ]; intros n y L; cbn [square_n_loop w_square_n_loop]; [ tgt | ]. destruct (y >? 0); [ | tgt ].
  apply agrees_bind2; [ apply usize_ag; lia | ]. intros y' E. apply usize_some in E as (-> & _). apply IH. lia.
Qed.
Lemma square_n_w : forall x y, y < 2 ^ 32 -> agrees (square_n x y) (w_square_n x y).
Proof.
  intros x y L. unfold square_n, w_square_n. destruct (Z.odd y); cbv zeta; (apply agrees_bind2; [ apply usize_ag; lia | intros y' E; apply usize_some in E as (-> & _); apply square_n_loop_w; lia ]).
Qed.
#[export] Hint Extern 2 (agrees (square_n _ _) _) => (apply square_n_w; reflexivity) : tgt.
Lemma isr_w : forall x, agrees (isr x) (w_isr x).
Proof. intros x. cbv beta delta [isr w_isr]. tgt. Qed.
#[export] Hint Resolve isr_w : tgt.
Lemma invert_w : forall x, agrees (invert x) (w_invert x).
Proof. intros x. cbv beta delta [invert w_invert]. tgt. Qed.
#[export] Hint Resolve invert_w : tgt.
Lemma dsa_fill_small : forall fuel input mask fill j buffer fill' j' buffer', dsa_fill fuel input mask fill j buffer = Some (fill', j', buffer') -> fill <= 36 -> fill' <= 36.
Proof.
  induction fuel as [ | f IH ]; intros input mask fill j buffer fill' j' buffer' H L; cbn [dsa_fill] in H; unfold RADIX in H;
    (destruct (Z.ltb_spec fill 28); cbn [andb] in H; [ | injection H as <- <- <-; lia ]);
    (destruct (j <? FIELD_BYTES); [ | injection H as <- <- <-; lia ]).
  - discriminate H.
  - destruct (znth input j) as [ sj | ]; [ | discriminate H ]. cbn [bind] in H. apply IH in H; lia.
Qed.
Lemma dsa_loop_w : forall ms i input mask fill j buffer scarry, fill <= 36 -> agrees (dsa_loop ms i input mask fill j buffer scarry) (w_dsa_loop ms i input mask fill j buffer scarry).
Proof.
  induction ms as [ | m ms IH ]; intros i input mask fill j buffer scarry L; cbn [dsa_loop w_dsa_loop]; [ tgt | ].
  apply agrees_bind_eq. intros ((f1 & j1) & b1) E. apply dsa_fill_small in E; [ | exact L ]. cbv zeta. unfold RADIX.
  apply agrees_bind2; [ apply usize_ag; lia | ]. intros f2 E2. apply usize_some in E2 as (-> & _).
  apply agrees_bind_same. intro sc. apply agrees_bind; [ apply IH; lia | intros ((? & ?) & ?); tgt ].
Qed.
Lemma dsa_like_deserialize_w : forall input mask, agrees (dsa_like_deserialize input mask) (w_dsa_like_deserialize input mask).
Proof. intros. unfold dsa_like_deserialize, w_dsa_like_deserialize. apply agrees_bind; [ apply dsa_loop_w; discriminate | intros ((? & ?) & ?); tgt ]. Qed.
#[export] Hint Resolve dsa_like_deserialize_w : tgt.
Lemma ser_loop_w : forall k x fill buffer, fill <= 36 -> agrees (ser_loop k x fill buffer) (w_ser_loop k x fill buffer).
Proof.
  induction k as [ | k IH ]; intros x fill buffer L; cbn [ser_loop w_ser_loop]; [ tgt | ].
  assert (K : exists x1 fill1 buffer1, match x with xj :: x' => if fill <? 8 then (x', fill + RADIX, Z.lor buffer (shl64 xj fill)) else (x, fill, buffer) | [] => (x, fill, buffer) end = (x1, fill1, buffer1) /\ fill1 <= 36).
  { destruct x as [ | xj x' ]; [ exists [], fill, buffer; auto | ]. destruct (Z.ltb_spec fill 8).
    - exists x', (fill + RADIX), (Z.lor buffer (shl64 xj fill)). unfold RADIX. split; [ reflexivity | lia ].
    - exists (xj :: x'), fill, buffer. auto. }
  destruct K as (x1 & f1 & b1 & -> & L1). cbv zeta.
  apply agrees_bind2; [ apply usize_ag; lia | ]. intros f2 E2. apply usize_some in E2 as (-> & _). apply agrees_bind; [ apply IH; lia | intro; tgt ].
Qed.
Lemma dsa_like_serialize_w : forall n, agrees (dsa_like_serialize n) (w_dsa_like_serialize n).
Proof. intros. unfold dsa_like_serialize, w_dsa_like_serialize. apply agrees_bind_same. intro x. apply ser_loop_w. discriminate. Qed.
#[export] Hint Resolve dsa_like_serialize_w : tgt.
Lemma long_loop_w : forall fuel b size res, size < 2 ^ 32 -> agrees (long_loop fuel b size res) (w_long_loop fuel b size res).
Proof.
  induction fuel as [ | f IH ]; intros b size res L; cbn [long_loop w_long_loop]; [ tgt | ]. destruct (size >? 0); [ | tgt ].
  unfold SCALAR_SER_BYTES. apply agrees_bind2; [ apply usize_ag; lia | ]. intros y E. apply usize_some in E as (-> & _).
  apply agrees_bind_same; intro. apply agrees_bind_same; intro. apply agrees_bind_same; intro. apply IH. lia.
Qed.
Lemma decode_long_w : forall b, Z.of_nat (length b) < 2 ^ 32 -> agrees (decode_long b) (w_decode_long b).
Proof.
  intros b L. unfold decode_long, w_decode_long. cbv zeta. destruct (_ =? 0); [ tgt | ]. apply agrees_bind_same. intro res.
  destruct (_ =? SCALAR_SER_BYTES); [ tgt | ]. apply long_loop_w.
  pose proof (Z.mod_pos_bound (Z.of_nat (length b)) SCALAR_SER_BYTES eq_refl).
  destruct (_ =? Z.of_nat (length b)); unfold SCALAR_SER_BYTES in *; lia.
Qed.
Lemma eddsa_like_encode_w : forall p, agrees (eddsa_like_encode p) (w_eddsa_like_encode p).
Proof. intros. cbv beta delta [eddsa_like_encode w_eddsa_like_encode]. tgt. Qed.
#[export] Hint Resolve eddsa_like_encode_w : tgt.

Lemma recode_while_w : forall fuel table_bits w control position current, Z.of_nat (length control) < 2 ^ 32 ->
  agrees (recode_while fuel table_bits w control position current) (w_recode_while fuel table_bits w control position current).
Proof.
  induction fuel as [ | f IH ]; intros tb w control position current L; cbn [recode_while w_recode_while]; [ tgt | ]. destruct (Z.land current 0xffff =? 0); [ tgt | ].
  apply agrees_bind_same. intro pos. cbv zeta. apply agrees_bind_same. intro d. apply agrees_bind_eq. intros c' E. apply zupd_some in E as (B & E).
  apply agrees_bind; [ apply usize_ag; lia | ]. intro y. apply IH. rewrite E. exact L.
Qed.
Lemma recode_while_length : forall fuel table_bits w control position current c' p' cur', recode_while fuel table_bits w control position current = Some (c', p', cur') -> length c' = length control.
Proof.
  induction fuel as [ | f IH ]; intros tb w control position current c' p' cur' H; cbn [recode_while] in H; (destruct (Z.land current 0xffff =? 0); [ injection H as <- <- <-; reflexivity | ]); [ discriminate H | ].
  destruct (trailing_zeroes_32 (wrap32 current)) as [ pos | ]; [ | discriminate H ]. rewrite bind_Some in H. cbv beta zeta in H.
  match type of H with bind ?a _ = _ => destruct a as [ d | ]; [ | discriminate H ] end. rewrite bind_Some in H. cbv beta in H.
  match type of H with bind ?a _ = _ => destruct a as [ c1 | ] eqn:E; [ | discriminate H ] end. rewrite bind_Some in H. cbv beta in H.
  destruct (chk_usize (position - 1)) as [ p1 | ]; [ | discriminate H ]. rewrite bind_Some in H. apply IH in H. apply zupd_some in E as (_ & E). congruence.
Qed.
Lemma recode_for_w : forall rounds w s table_bits control position current, Z.of_nat (length control) < 2 ^ 32 ->
  agrees (recode_for rounds w s table_bits control position current) (w_recode_for rounds w s table_bits control position current).
Proof.
  induction rounds as [ | f IH ]; intros w s tb control position current L; cbn [recode_for w_recode_for]; [ tgt | ].
  apply agrees_bind_same. intro cur. apply agrees_bind2; [ apply recode_while_w; exact L | ]. intros ((c1 & p1) & cur1) E. apply recode_while_length in E. apply IH. rewrite E. exact L.
Qed.
Lemma recode_for_length : forall rounds w s table_bits control position current c' p' cur', recode_for rounds w s table_bits control position current = Some (c', p', cur') -> length c' = length control.
Proof.
  induction rounds as [ | f IH ]; intros w s tb control position current c' p' cur' H; cbn [recode_for] in H; [ injection H as <- <- <-; reflexivity | ].
  match type of H with bind ?a _ = _ => destruct a as [ d | ]; [ | discriminate H ] end. rewrite bind_Some in H. cbv beta in H.
  destruct (recode_while 20 tb w control position d) as [ ((c1 & p1) & cur1) | ] eqn:E; [ | discriminate H ]. rewrite bind_Some in H. apply IH in H. apply recode_while_length in E. congruence.
Qed.
Lemma recode_wnaf_w : forall control s table_bits, 0 <= table_bits -> Z.of_nat (length control) < 2 ^ 32 -> agrees (recode_wnaf control s table_bits) (w_recode_wnaf control s table_bits).
Proof.
  intros control s tb P L. unfold recode_wnaf, w_recode_wnaf.
  assert (T : 446 / (tb + 1) <= 446) by (apply Z.div_le_upper_bound; nia).
  set (ts := 446 / (tb + 1) + 3) in *. assert (T' : ts < 2 ^ 31) by (unfold ts; lia). clearbody ts. cbv zeta.
  apply agrees_bind_eq. intros c1 E1. apply zupd_some in E1 as (_ & E1). apply agrees_bind_same. intro s0.
  apply agrees_bind2; [ apply recode_for_w; rewrite E1; exact L | ]. intros ((c2 & p2) & cur2) E2. apply recode_for_length in E2.
  destruct (Z.ltb_spec (ts - (p2 + 1)) (2 ^ 32)) as [ B | B ].
  - apply agrees_bind2; [ apply usize_ag; exact B | ]. intros n E. apply usize_some in E as (-> & _). apply agrees_bind_same. intro c3. apply agrees_bind; [ apply usize_ag; lia | intro; tgt ].
  - intros r H. exfalso. destruct (chk_usize (ts - (p2 + 1))) as [ n | ] eqn:E; [ | discriminate H ]. apply usize_some in E as (-> & _). rewrite bind_Some in H.
    assert (N : exists k, Z.to_nat (ts - (p2 + 1)) = S k) by (exists (Z.to_nat (ts - (p2 + 1) - 1)); lia). destruct N as (k & N). rewrite N in H. cbn [recode_copy] in H.
    destruct (znth c2 (0 + (p2 + 1))) as [ c | ] eqn:E; [ apply znth_some in E; lia | ]. discriminate H.
Qed.
#[export] Hint Resolve half_ag index_ag : tgt.
Lemma wnaf_table_length : Z.of_nat (length DECAF_WNAF_TABLE) <= 2 ^ 31.
Proof. vm_compute. discriminate. Qed.
#[export] Hint Resolve wnaf_table_length : tgt.
Lemma var_step_w : forall cv cp i c precmp_var out, Z.of_nat (length precmp_var) <= 2 ^ 31 -> agrees (var_step cv cp i c precmp_var out) (w_var_step cv cp i c precmp_var out).
Proof. intros. cbv beta delta [var_step w_var_step]. tgt. Qed.
#[export] Hint Resolve var_step_w : tgt.
Lemma pre_step_w : forall cp i c out, agrees (pre_step cp i c out) (w_pre_step cp i c out).
Proof. intros. cbv beta delta [pre_step w_pre_step]. tgt. Qed.
#[export] Hint Resolve pre_step_w : tgt.
Lemma double_mul_loop_w : forall fuel cv cp precmp_var i contv contp out, Z.of_nat (length precmp_var) <= 2 ^ 31 ->
  agrees (double_mul_loop fuel cv cp precmp_var i contv contp out) (w_double_mul_loop fuel cv cp precmp_var i contv contp out).
Proof. induction fuel as [ | f IH ]; intros; cbn [double_mul_loop w_double_mul_loop]; tgt. Qed.
#[export] Hint Resolve double_mul_loop_w : tgt.
Lemma wnaf_loop_length : forall n p op l, wnaf_loop n p op = Some l -> length l = n.
Proof.
  induction n as [ | n IH ]; intros p op l H; cbn [wnaf_loop] in H; [ injection H as <-; reflexivity | ].
  destruct (add_projected_niels_to_extended p op false) as [ p1 | ]; [ | discriminate H ]. rewrite bind_Some in H.
  destruct (to_projected_niels p1) as [ e | ]; [ | discriminate H ]. rewrite bind_Some in H.
  destruct (wnaf_loop n p1 op) as [ r | ] eqn:E; [ | discriminate H ]. rewrite bind_Some in H. injection H as <-. apply IH in E. cbn [length]. congruence.
Qed.
Lemma prepare_length : forall p l, decaf_prepare_wnaf_table p = Some l -> length l = 8%nat.
Proof.
  intros p l H. unfold decaf_prepare_wnaf_table in H.
  repeat (match type of H with bind ?a _ = _ => destruct a eqn:?; [ rewrite bind_Some in H; cbv beta in H | discriminate H ] end).
  injection H as <-. cbn [length]. match goal with E : wnaf_loop _ _ _ = _ |- _ => apply wnaf_loop_length in E; rewrite E end. reflexivity.
Qed.
Lemma point_double_scalamul_non_secret_w : forall p a b, agrees (point_double_scalamul_non_secret p a b) (w_point_double_scalamul_non_secret p a b).
Proof.
  intros. cbv beta delta [point_double_scalamul_non_secret w_point_double_scalamul_non_secret].
  cbv zeta.
  apply agrees_bind; [ apply recode_wnaf_w; [ discriminate | reflexivity ] | intros (cp & ?) ].
  apply agrees_bind; [ apply recode_wnaf_w; [ discriminate | reflexivity ] | intros (cv & ?) ].
  apply agrees_bind_eq. intros l E. apply prepare_length in E. assert (L : Z.of_nat (length l) <= 2 ^ 31) by (rewrite E; discriminate).
  tgt.
Qed.
#[export] Hint Resolve point_double_scalamul_non_secret_w : tgt.
Lemma eddsa_like_decode_w : forall s, agrees (eddsa_like_decode s) (w_eddsa_like_decode s).
Proof. intros. cbv beta delta [eddsa_like_decode w_eddsa_like_decode]. tgt. Qed.
#[export] Hint Resolve eddsa_like_decode_w : tgt.

Lemma clamp_length : forall p d, clamp p = Some d -> length d = length p.
Proof.
  intros p d H. unfold clamp in H.
  destruct (znth p 0) as [ b0 | ]; [ | discriminate H ]. rewrite bind_Some in H.
  destruct (zupd p 0 (Z.land b0 252)) as [ p1 | ] eqn:E1; [ | discriminate H ]. rewrite bind_Some in H.
  destruct (zupd p1 56 0) as [ p2 | ] eqn:E2; [ | discriminate H ]. rewrite bind_Some in H.
  destruct (znth p2 55) as [ b55 | ]; [ | discriminate H ]. rewrite bind_Some in H.
  apply zupd_some in H as (_ & H). apply zupd_some in E1 as (_ & E1). apply zupd_some in E2 as (_ & E2). congruence.
Qed.
Lemma slice_length : forall l a b r, slice l a b = Some r -> (length r <= b)%nat.
Proof. intros l a b r H. unfold slice in H. destruct (_ && _); [ | discriminate H ]. injection H as <-. rewrite firstn_length. lia. Qed.
Definition small (l : list Z) : Prop := Z.of_nat (length l) < 2 ^ 32.
Lemma small_57 : forall l, (length l <= 114)%nat -> small l.
Proof. intros l H. unfold small. change (2 ^ 32) with 4294967296. lia. Qed.
Lemma point_by_secret_w : forall p, small p -> agrees (point_by_secret p) (w_point_by_secret p).
Proof.
  intros p S. cbv beta delta [point_by_secret w_point_by_secret]. apply agrees_bind_eq. intros d E. apply clamp_length in E.
  apply agrees_bind; [ apply decode_long_w; rewrite E; exact S | intro; tgt ].
Qed.
Lemma secret_to_public_w : forall p, small p -> agrees (secret_to_public p) (w_secret_to_public p).
Proof. intros p S. cbv beta delta [secret_to_public w_secret_to_public]. apply agrees_bind; [ exact (point_by_secret_w p S) | intro; tgt ]. Qed.
Section Hash.
Variable xof : list Z -> nat -> list Z.
Hypothesis xof_length : forall x n, length (xof x n) = n.
Lemma hash_w : forall x, agrees (decode_long (hash_with_dom xof x 114)) (w_decode_long (hash_with_dom xof x 114)).
Proof. intro x. apply decode_long_w. apply small_57. unfold hash_with_dom. rewrite xof_length. exact (le_n 114). Qed.
Lemma dsa_verify_w : forall pubkey sig message, agrees (dsa_verify xof pubkey sig message) (w_dsa_verify xof pubkey sig message).
Proof.
  intros. cbv beta delta [dsa_verify w_dsa_verify]. apply agrees_bind; [ tgt | intros [ p | e ]; [ | tgt ] ].
  apply agrees_bind_same. intro p2. apply agrees_bind_same. intro sig1. apply agrees_bind_eq. intros sig2 E2. apply slice_length in E2.
  apply agrees_bind; [ tgt | intros [ r | e ]; [ | tgt ] ]. apply agrees_bind_same. intro r4. apply agrees_bind; [ tgt | intro penc ].
  cbv zeta. apply agrees_bind; [ apply hash_w | intro c ]. apply agrees_bind_same. intro c'.
  apply agrees_bind; [ apply decode_long_w; exact (small_57 _ E2) | intro s ]. tgt.
Qed.
Lemma private_to_public_w : forall pk, agrees (private_to_public xof pk) (w_private_to_public xof pk).
Proof.
  intro pk. cbv beta delta [private_to_public w_private_to_public]. apply agrees_bind_eq. intros s E. apply secret_to_public_w.
  unfold private_to_secret in E. cbv zeta in E. destruct (znth (sha3 xof pk 57) 56) as [ b | ]; [ | discriminate E ]. rewrite bind_Some in E.
  apply zupd_some in E as (_ & E). apply small_57. rewrite E. unfold sha3. rewrite xof_length. lia.
Qed.
Lemma sign_tail_w : forall sec seed point message, agrees (sign_tail xof sec seed point message) (w_sign_tail xof sec seed point message).
Proof.
  intros. cbv beta delta [sign_tail w_sign_tail]. cbv zeta. apply agrees_bind; [ apply hash_w | intro k ]. apply agrees_bind_same. intro np.
  apply agrees_bind; [ tgt | intro r ]. apply agrees_bind; [ tgt | intro a ]. apply agrees_bind; [ apply hash_w | intro c ]. tgt.
Qed.
Lemma sign_by_private_w : forall pk message, agrees (sign_by_private xof pk message) (w_sign_by_private xof pk message).
Proof.
  intros. cbv beta delta [sign_by_private w_sign_by_private]. cbv zeta. apply agrees_bind_same. intro secret. apply agrees_bind_eq. intros sk E. apply slice_length in E.
  assert (S : small sk) by (apply small_57; lia).
  apply agrees_bind; [ exact (decode_long_w sk S) | intro sec ]. apply agrees_bind_same. intro seed. apply agrees_bind; [ exact (point_by_secret_w sk S) | intro p ]. apply sign_tail_w.
Qed.
Lemma sign_with_secret_and_nonce_w : forall secret n message, small secret -> agrees (sign_with_secret_and_nonce xof secret n message) (w_sign_with_secret_and_nonce xof secret n message).
Proof.
  intros secret n message S. cbv beta delta [sign_with_secret_and_nonce w_sign_with_secret_and_nonce]. apply agrees_bind_eq. intros s1 E. apply clamp_length in E.
  apply agrees_bind; [ apply decode_long_w; rewrite E; exact S | intro sec ]. apply agrees_bind; [ exact (point_by_secret_w secret S) | intro p ]. apply sign_tail_w.
Qed.
Lemma ed448_derive_public_w : forall pk, small pk -> agrees (ed448_derive_public xof pk) (w_ed448_derive_public xof pk).
Proof. intros pk S. cbv beta delta [ed448_derive_public w_ed448_derive_public]. apply agrees_bind_same. intro b. destruct (_ =? 0); [ apply private_to_public_w | exact (secret_to_public_w pk S) ]. Qed.
Lemma ed448_sign_w : forall pk message, small pk -> agrees (ed448_sign xof pk message) (w_ed448_sign xof pk message).
Proof.
  intros pk message S. cbv beta delta [ed448_sign w_ed448_sign]. apply agrees_bind_same. intro b. destruct (_ =? 0); [ apply sign_by_private_w | ].
  apply agrees_bind_eq. intros d E. apply clamp_length in E. apply sign_with_secret_and_nonce_w. unfold small. rewrite E. exact S.
Qed.
Lemma array_small : forall s a, to_array57 s = Some a -> small a.
Proof.
  intros s a H. unfold to_array57 in H. destruct (Z.eqb_spec (Z.of_nat (length s)) 57) as [ L | L ]; [ | discriminate H ]. injection H as <-. apply small_57. lia.
Qed.
Lemma hex_bytes_length : forall n s a, (length s <= n)%nat -> hex_bytes s = Some a -> length s = (2 * length a)%nat.
Proof.
  induction n as [ | n IH ]; intros s a L H.
  - destruct s; [ injection H as <-; reflexivity | cbn [length] in L; lia ].
  - destruct s as [ | c1 [ | c2 t ] ]; cbn [hex_bytes] in H; [ injection H as <-; reflexivity | discriminate H | ].
    destruct (hex_val c1) as [ h | ]; [ | discriminate H ]. rewrite bind_Some in H. destruct (hex_val c2) as [ l | ]; [ | discriminate H ]. rewrite bind_Some in H.
    destruct (hex_bytes t) as [ r | ] eqn:E; [ | discriminate H ]. rewrite bind_Some in H. injection H as <-. cbn [length] in *. rewrite (IH t r ltac:(lia) E). lia.
Qed.
Lemma hex_small : forall s a, hex_to_private_key s = Some a -> small a.
Proof.
  intros s a H. unfold hex_to_private_key, hex_decode_to_slice in H. destruct (Z.eqb_spec (Z.of_nat (length s)) (2 * 57)) as [ L | L ]; [ | discriminate H ].
  pose proof (hex_bytes_length _ s a (le_n _) H). apply small_57. lia.
Qed.
Lemma signing_from_str_w : forall s, agrees (signing_from_str xof s) (w_signing_from_str xof s).
Proof.
  intro s. cbv beta delta [signing_from_str w_signing_from_str]. apply agrees_bind_eq. intros a E. apply hex_small in E.
  apply agrees_bind; [ exact (ed448_derive_public_w a E) | intro; tgt ].
Qed.
Lemma signing_from_slice_w : forall s, agrees (signing_from_slice xof s) (w_signing_from_slice xof s).
Proof.
  intro s. cbv beta delta [signing_from_slice w_signing_from_slice]. apply agrees_bind_eq. intros a E. apply array_small in E.
  apply agrees_bind; [ exact (ed448_derive_public_w a E) | intro; tgt ].
Qed.
Lemma signing_from_bytes_w : forall s, agrees (signing_from_bytes xof s) (w_signing_from_bytes xof s).
Proof.
  intro s. cbv beta delta [signing_from_bytes w_signing_from_bytes]. destruct (negb _); [ tgt | ]. apply agrees_bind_eq. intros a E. apply array_small in E.
  apply agrees_bind; [ exact (ed448_derive_public_w a E) | intro; tgt ].
Qed.
Lemma sign_prehash_w : forall k message, small (sk_key (sg_secret k)) -> agrees (sign_prehash xof k message) (w_sign_prehash xof k message).
Proof. intros k message S. cbv beta delta [sign_prehash w_sign_prehash]. apply agrees_bind; [ exact (ed448_sign_w _ message S) | intro; tgt ]. Qed.
End Hash.
