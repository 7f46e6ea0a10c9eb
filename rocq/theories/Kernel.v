(* Consequences of the description of the kernel: which points a representation stands for, and
   multiplication of any represented point.  Also: unique canonical encodings, keys with the neutral
   element as public key, decoding of derived keys, the outcome of the field comparison. *)
From Coq Require Import ZArith List Bool Lia Znumtheory Ring Field.
From Verif Require Import SpecField SpecBytes SpecScalar SpecCurve SpecDecode SpecEd448 SpecVerify SpecInternal.
From Verif Require Import Base Arith Bytes Constants32 BigNumber ScalarModel Niels Errors ExtendedPoint Eddsa Goldilocks.
From Verif Require Import LimbOps2 Field FieldOps ScalarProofs Edwards Isogeny PointOps PointMul CombMul FastF BaseTables DoubleMul Decode Ed448 Verify Order Equation Facts Internal Sound Torsion.
Import ListNotations.
Open Scope Z_scope.

Lemma iso4_4 : forall P Q, on_curve P -> on_curve Q -> emul 4 P = emul 4 Q -> iso4 P = iso4 Q.
Proof. intros P Q HP HQ E. rewrite !iso4_phi. apply phi_4; assumption. Qed.
Lemma represents_on : forall p Q, represents p Q -> on_curve Q.
Proof. intros p Q H. unfold represents in H. tauto. Qed.
Lemma represents_4 : forall p P Q, represents p P -> on_curve Q -> emul 4 P = emul 4 Q -> represents p Q.
Proof.
  intros p P Q H HQ E. pose proof (represents_on p P H) as HP. pose proof (iso4_4 P Q HP HQ E) as I. unfold represents in *. rewrite <- I. tauto.
Qed.
Theorem represents_iff : forall p P Q, represents p P -> (represents p Q <-> on_curve Q /\ emul 4 Q = emul 4 P).
Proof.
  intros p P Q H. split.
  - intro K. pose proof (represents_on _ _ H) as HP. pose proof (represents_on _ _ K) as HQ. split; [ exact HQ | ].
    rewrite rep_iff in H, K. pose proof (encode_point_ok p _ (proj1 H)) as E1. pose proof (encode_point_ok p _ (proj1 K)) as E2.
    rewrite E1 in E2. apply some_inj in E2. symmetry. apply eencode_inj; [ apply emul_on; exact HP | apply emul_on; exact HQ | exact E2 ].
  - intros (HQ & E). apply (represents_4 p P Q H HQ). symmetry. exact E.
Qed.
Theorem variable_base_all : forall p s Q, represents p Q -> reduced s ->
  exists r, point_scalar_mul p s = Some r /\ represents r (emul (sc s) Q).
Proof.
  intros p s Q P H. pose proof (represents_on _ _ P) as HQ. destruct (variable_base p s Q P H) as (r & m & E & R & _ & M & _).
  exists r. split; [ exact E | ]. apply (represents_4 r (emul m Q)); [ exact R | apply emul_on; exact HQ | ].
  rewrite <- !emul_mul by exact HQ. exact M.
Qed.

(* encodings *)
Theorem canonical_unique : forall src P, bytes src -> length src = 57%nat -> enc_pad_ok src = true -> denotes src P ->
  enc_y src < p448 -> (fst P = fzero -> enc_sign src = false) -> src = eencode P.
Proof.
  intros src (x, y) B L PAD (ON & EY & ES) LT Z. unfold fst, snd in EY, ES, Z.
  assert (V : fval y = enc_y src).
  { rewrite EY, fval_mkF. apply Z.mod_small. split; [ | exact LT ]. unfold enc_y. apply le_val_range. apply bytes_firstn. exact B. }
  assert (S : Z.odd (fval x) = enc_sign src).
  { destruct (F_dec x fzero) as [E|E]; [ rewrite (Z E), E, fval_fzero; reflexivity | exact (ES E) ]. }
  unfold eencode. rewrite V. unfold enc_y.
  assert (L56 : length (firstn 56 src) = 56%nat) by (rewrite firstn_length, L; reflexivity).
  assert (C : src = firstn 56 src ++ [nth 56 src 0]).
  { rewrite <- (firstn_skipn 56 src) at 1. f_equal.
    assert (L1 : length (skipn 56 src) = 1%nat) by (rewrite skipn_length, L; reflexivity).
    rewrite <- (firstn_skipn 56 src) at 2. rewrite app_nth2 by (rewrite L56; apply Nat.le_refl). rewrite L56, Nat.sub_diag.
    destruct (skipn 56 src) as [|b [|c t]]; [ discriminate L1 | reflexivity | discriminate L1 ]. }
  rewrite C at 1. f_equal.
  - symmetry. rewrite <- L56 at 1. apply le_bytes_le_val. apply bytes_firstn. exact B.
  - f_equal. assert (Bb : byte (nth 56 src 0)) by (apply (proj1 (Forall_forall _ _) B); apply nth_In; rewrite L; apply Nat.lt_succ_diag_r).
    unfold enc_pad_ok in PAD. apply Z.eqb_eq in PAD. unfold enc_sign in S. unfold byte in Bb.
    rewrite Zmod_odd, S. pose proof (Z.div_mod (nth 56 src 0) 128 ltac:(lia)) as D. destruct (128 <=? nth 56 src 0) eqn:C1; [ apply Z.leb_le in C1 | apply Z.leb_gt in C1 ]; lia.
Qed.

Section Hash.
Variable xof : list Z -> nat -> list Z.
Hypothesis XOF : is_xof xof.

Lemma key_public : forall key, length key = 57%nat -> bytes key -> ed448_derive_public xof key = Some (eencode (emul (key_scalar xof key) ebase)).
Proof. intros key L B. rewrite (derive_public_ok xof XOF key L B). unfold key_scalar, rfc_public. destruct (enc_sign key); reflexivity. Qed.
Lemma scalar_form : forall h, exists j, secret_scalar h = 4 * j /\ 2 ^ 447 <= secret_scalar h < 2 ^ 448.
Proof.
  intro h. unfold secret_scalar. set (v := le_val (firstn 56 h)). exists (2 ^ 445 + v mod 2 ^ 447 / 4).
  pose proof (Z.mod_pos_bound v (2 ^ 447) ltac:(lia)) as B. set (w := v mod 2 ^ 447) in *. clearbody w.
  pose proof (Z.div_mod w 4 ltac:(lia)) as D. pose proof (Z.mod_pos_bound w 4 ltac:(lia)) as M.
  change (2 ^ 447) with (4 * 2 ^ 445) in *. change (2 ^ 448) with (8 * 2 ^ 445). set (u := 2 ^ 445) in *. clearbody u. lia.
Qed.
Theorem identity_key_iff : forall key, length key = 57%nat -> bytes key ->
  (ed448_derive_public xof key = Some (eencode ezero) <-> key_scalar xof key = 4 * q448).
Proof.
  intros key L B. rewrite (key_public key L B). unfold key_scalar. destruct (scalar_form (if enc_sign key then key else xof key 114)) as (j & E & R).
  set (s := secret_scalar _) in *. clearbody s. rewrite <- (emul_0 ebase). split.
  - intro H. apply some_inj in H. apply nonce_inj in H. rewrite Z.mod_0_l in H by exact q448_nz.
    apply Z.mod_divide in H; [ | exact q448_nz ].
    assert (G : (q448 | j)).
    { apply (Gauss q448 4 j); [ rewrite <- E; exact H | ]. apply rel_prime_sym. apply (proj1 (Zgcd_1_rel_prime 4 q448)). vm_compute. reflexivity. }
    destruct G as (t & G). pose proof q448_bounds as Q. assert (t = 1); [ | subst t; lia ].
    assert (K1 : 2 ^ 447 <= 4 * (t * q448) < 2 ^ 448) by (rewrite <- G, <- E; exact R).
    assert (Q1 : 2 ^ 445 < q448 < 2 ^ 446) by (vm_compute; split; reflexivity).
    assert (1 <= t) by nia. assert (t < 2); [ | lia ].
    change (2 ^ 448) with (8 * 2 ^ 445) in K1. change (2 ^ 446) with (2 * 2 ^ 445) in Q1. set (u := 2 ^ 445) in *. assert (0 < u) by (unfold u; lia). clearbody u. nia.
  - intro H. rewrite H. assert (K : emul (4 * q448) ebase = emul 0 ebase) by (apply base_inj; rewrite Z.mod_mul by exact q448_nz; rewrite Z.mod_0_l by exact q448_nz; reflexivity).
    rewrite K. reflexivity.
Qed.
Theorem derived_decodes_iff : forall key pub, length key = 57%nat -> bytes key -> ed448_derive_public xof key = Some pub ->
  ((exists p, eddsa_like_decode pub = Some (Ok p)) <-> decoder_tests (emul (key_scalar xof key) ebase)).
Proof.
  intros key pub L B E. rewrite (key_public key L B) in E. apply some_inj in E. subst pub.
  rewrite <- decodable_eencode by (apply emul_on; exact ebase_on). destruct (decode_iff _ (eencode_bytes (emul (key_scalar xof key) ebase))) as (D1 & D2 & _).
  split; [ intros (p & H); exact (D1 p H) | exact D2 ].
Qed.
End Hash.

(* the comparison of field elements: equality of the difference with zero in its low 420 bits *)
Theorem comparison : forall a b, summed a -> carried b -> decaf_equal a b = Some (mask32 (low_zero (fsub (fe a) (fe b)))).
Proof.
  intros a b A B. rewrite summed_iff in A. rewrite carried_iff in B. rewrite mask32_eq, !fe_F, low_zero_eq. apply decaf_equal_F; assumption.
Qed.
Theorem comparison_equal : forall a b, summed a -> carried b -> fe a = fe b -> decaf_equal a b = Some (2 ^ 32 - 1).
Proof.
  intros a b A B E. rewrite (comparison a b A B), E. replace (fsub (fe b) (fe b)) with fzero by ring. rewrite low_zero_eq, low420_zero. reflexivity.
Qed.
Theorem comparison_wrong : forall a b, summed a -> carried b -> decaf_equal a b = Some (2 ^ 32 - 1) ->
  exists j, 0 <= j < 2 ^ 28 /\ fval (fsub (fe a) (fe b)) = j * 2 ^ 420.
Proof.
  intros a b A B H. rewrite (comparison a b A B) in H. apply low_zero_iff. destruct (low_zero (fsub (fe a) (fe b))); [ reflexivity | discriminate H ].
Qed.
