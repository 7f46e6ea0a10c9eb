(* Agreement with other implementations of RFC 8032; public keys and secret scalars. *)
From Coq Require Import ZArith List Bool Lia Znumtheory Ring.
From Verif Require Import SpecField SpecBytes SpecScalar SpecCurve SpecDecode SpecEd448 SpecVerify SpecInternal SpecShake.
From Verif Require Import Base Bytes Errors Eddsa Goldilocks.
From Verif Require Import Field Edwards Isogeny CombMul BaseTables PrimeQ Decode Ed448 Order Equation Facts Sound Shake Kernel Bind Samples.
Import ListNotations.
Open Scope Z_scope.

Lemma below_2_456 : forall x, (x mod q448) mod 2 ^ (8 * Z.of_nat 57) = x mod q448.
Proof.
  intro x. apply Z.mod_small. pose proof (Z.mod_pos_bound x q448 ltac:(reflexivity)) as K. revert K. generalize (x mod q448).
  intros y K. assert (q448 < 2 ^ (8 * Z.of_nat 57)) by (vm_compute; reflexivity). lia.
Qed.
Section Hash.
Variable xof : list Z -> nat -> list Z.
Hypothesis XOF : is_xof xof.

Lemma with_valid : forall s prefix message, rfc_valid xof (eencode (emul s ebase)) (rfc_sign_with xof s prefix (eencode (emul s ebase)) message) message.
Proof.
  intros s prefix message. unfold rfc_sign_with. cbv zeta.
  set (r := le_val (xof (rfc_dom ++ prefix ++ message) 114)). clearbody r.
  set (k := le_val (xof (rfc_dom ++ eencode (emul r ebase) ++ eencode (emul s ebase) ++ message) 114)).
  pose proof (emul_on r ebase ebase_on) as HR. pose proof (emul_on s ebase ebase_on) as HA.
  set (sig := eencode (emul r ebase) ++ le_bytes 57 ((r + k * s) mod q448)).
  assert (F1 : firstn 57 sig = eencode (emul r ebase)).
  { unfold sig. rewrite firstn_app, eencode_len, Nat.sub_diag, firstn_O, app_nil_r. apply firstn_all2. rewrite eencode_len. apply Nat.le_refl. }
  assert (F2 : skipn 57 sig = le_bytes 57 ((r + k * s) mod q448)).
  { unfold sig. rewrite skipn_app, eencode_len, Nat.sub_diag, skipn_O, skipn_all2, app_nil_l by (rewrite eencode_len; apply Nat.le_refl). reflexivity. }
  assert (L : length sig = 114%nat) by (unfold sig; rewrite app_length, eencode_len, le_bytes_length; reflexivity).
  exists (emul s ebase), (emul r ebase). split; [ split; [ exact HA | reflexivity ] | ]. rewrite F1, F2.
  split; [ split; [ exact HR | reflexivity ] | ]. split; [ exact L | ]. rewrite le_val_le_bytes, below_2_456.
  split; [ apply Z.mod_pos_bound; reflexivity | ]. unfold rfc_challenge. fold k. clearbody k. clear - HR HA.
  unfold rfc_equation. rewrite mod_4q_mul by exact ebase_on. rewrite <- !emul_mul by exact ebase_on. rewrite <- emul_add by exact ebase_on.
  replace (4 * (r + k * s)) with (4 * r + 4 * k * s) by ring. reflexivity.
Qed.
(* every RFC 8032 verifier accepts what ed448_sign produces *)
Theorem honest_valid : forall key message pub sig, length key = 57%nat -> bytes key ->
  ed448_derive_public xof key = Some pub -> ed448_sign xof key message = Some sig -> rfc_valid xof pub sig message.
Proof.
  intros key message pub sig L B E1 E2. rewrite derive_public_ok in E1 by assumption. rewrite sign_ok in E2 by assumption.
  apply some_inj in E1. apply some_inj in E2. destruct (enc_sign key); rewrite <- E1, <- E2.
  - apply with_valid.
  - unfold rfc_sign, rfc_public. cbv zeta. apply with_valid.
Qed.
(* a public key with a component outside the group of B: the challenges must agree *)
Theorem mixed_key : forall pub sig message A, bytes pub -> bytes sig -> rfc_decodes pub A -> subgroup_part A <> ezero ->
  rfc_valid xof pub sig message -> ed448_verify xof pub sig message = Some (Ok true) ->
  rfc_challenge xof (firstn 57 sig) pub message mod q448 = rfc_challenge xof (firstn 57 sig) (eencode (subgroup_part A)) message mod q448 \/
  false_positive xof pub sig message.
Proof.
  intros pub sig message A B1 B2 (CA & EA) S (A' & R & (CA' & EA') & (CR & ER) & L & _ & Q) V.
  assert (A' = A) by (apply eencode_inj; congruence). subst A'.
  assert (F : firstn 57 (skipn 57 sig) = skipn 57 sig) by (apply firstn_all2; rewrite skipn_length, L; apply Nat.le_refl).
  assert (NA : denotes pub A) by (rewrite EA; apply denotes_eencode; exact CA).
  assert (NR : denotes (firstn 57 sig) R) by (rewrite ER; apply denotes_eencode; exact CR).
  destruct (verify_case xof XOF pub sig message A R B1 B2 NA NR V) as [ Q' | Q' ]; [ left | right; exact Q' ]. rewrite F in Q'.
  unfold rfc_equation in Q, Q'. rewrite Q in Q'. apply eadd_cancel_l in Q'; try (apply emul_on; assumption).
  set (k := rfc_challenge xof (firstn 57 sig) pub message) in *. set (k' := rfc_challenge xof (firstn 57 sig) (eencode (subgroup_part A)) message) in *. clearbody k k'.
  destruct (Zdivide_dec q448 (k - k')) as [ (c & Hc) | N ].
  - replace k with (k' + c * q448) by lia. apply Z.mod_add. discriminate.
  - exfalso. apply S. apply (four_k A (k - k') CA); [ | exact N ]. replace (4 * (k - k')) with (4 * k + - (4 * k')) by ring.
    rewrite emul_add, emul_opp, Q' by exact CA. apply eadd_neg. apply emul_on. exact CA.
Qed.
(* the public key determines the secret scalar, also as an integer *)
Theorem scalar_unique : forall key key' pub pub', length key = 57%nat -> bytes key -> length key' = 57%nat -> bytes key' ->
  ed448_derive_public xof key = Some pub -> ed448_derive_public xof key' = Some pub' ->
  (pub = pub' <-> key_scalar xof key = key_scalar xof key').
Proof.
  intros key key' pub pub' L B L' B' E E'. rewrite (key_public xof XOF key L B) in E. rewrite (key_public xof XOF key' L' B') in E'.
  apply some_inj in E. apply some_inj in E'. subst pub pub'. split; [ | intros ->; reflexivity ].
  intro H. apply nonce_inj in H. revert H. unfold key_scalar.
  destruct (scalar_form (if enc_sign key then key else xof key 114)) as (j & E & R).
  destruct (scalar_form (if enc_sign key' then key' else xof key' 114)) as (j' & E' & R').
  set (s := secret_scalar _) in *. set (s' := secret_scalar (if enc_sign key' then _ else _)) in *. clearbody s s'. intro H. rewrite E, E' in H. apply cancel4 in H.
  assert (Q1 : 2 ^ 445 < q448) by (vm_compute; reflexivity).
  assert (G : (j - j') mod q448 = 0) by (rewrite Zminus_mod, H, Z.sub_diag; reflexivity).
  apply Z.mod_divide in G; [ | discriminate ]. destruct G as (t & G).
  change (2 ^ 448) with (8 * 2 ^ 445) in *. change (2 ^ 447) with (4 * 2 ^ 445) in *. set (u := 2 ^ 445) in *. assert (0 < u) by (unfold u; lia). clearbody u.
  assert (t = 0) by nia. subst t. lia.
Qed.
End Hash.

(* a key that differs from B by the point of order 2, SHAKE256, the empty message *)
Definition pubm : list Z := eencode (eadd ebase point2).
Definition kB : Z := rfc_challenge shake256 (eencode ebase) (eencode ebase) [].
Definition sigm : list Z := eencode ebase ++ le_bytes 57 ((1 + kB) mod q448).
Transparent ebase.
Lemma pubm_eq : pubm = eencode (fopp (fst ebase), fopp (snd ebase)).
Proof. unfold pubm, ebase. rewrite shift2. reflexivity. Qed.
Lemma challenges_differ : rfc_challenge shake256 (eencode ebase) pubm [] mod q448 <> kB mod q448.
Proof. rewrite pubm_eq. apply Z.eqb_neq. vm_compute. reflexivity. Qed.
Opaque ebase.
Lemma sigm_parts : bytes sigm /\ length sigm = 114%nat /\ firstn 57 sigm = eencode ebase /\ skipn 57 sigm = le_bytes 57 ((1 + kB) mod q448).
Proof.
  unfold sigm. generalize ((1 + kB) mod q448). intro s.
  assert (F1 : firstn 57 (eencode ebase ++ le_bytes 57 s) = eencode ebase).
  { rewrite firstn_app, eencode_len, Nat.sub_diag, firstn_O, app_nil_r. apply firstn_all2. rewrite eencode_len. apply Nat.le_refl. }
  assert (F2 : skipn 57 (eencode ebase ++ le_bytes 57 s) = le_bytes 57 s).
  { rewrite skipn_app, eencode_len, Nat.sub_diag, skipn_O, skipn_all2, app_nil_l by (rewrite eencode_len; apply Nat.le_refl). reflexivity. }
  split; [ apply bytes_app; split; [ apply eencode_bytes | apply le_bytes_bytes ] | ].
  split; [ rewrite app_length, eencode_len, le_bytes_length; reflexivity | ]. split; assumption.
Qed.
Lemma sigm_S : le_val (skipn 57 sigm) = (1 + kB) mod q448.
Proof. destruct sigm_parts as (_ & _ & _ & F). rewrite F, le_val_le_bytes. apply below_2_456. Qed.
Lemma minus_one : forall k k', (1 + k') mod q448 = (1 + k) mod q448 -> k mod q448 = k' mod q448.
Proof.
  intros k k' E. replace k with (1 + k - 1) by ring. rewrite Zminus_mod, <- E, <- Zminus_mod. f_equal. ring.
Qed.
Local Opaque emul eencode eadd point2 subgroup_part rfc_challenge ed448_verify q448 kB.
Lemma right_gen : forall k B T, on_curve B -> on_curve T -> emul 4 T = ezero -> eadd (emul 4 B) (emul (4 * k) (eadd B T)) = emul (4 * (1 + k)) B.
Proof.
  intros k B T HB HT H4. rewrite emul_eadd by assumption. rewrite (Z.mul_comm 4 k), (emul_mul k 4 T), H4, emul_ezero, eadd_0_r by exact HT.
  rewrite <- emul_add by exact HB. f_equal. ring.
Qed.
Lemma equation_base : forall k, rfc_equation ((1 + kB) mod q448) ebase k (eadd ebase point2) <-> (1 + kB) mod q448 = (1 + k) mod q448.
Proof.
  intro k. unfold rfc_equation. rewrite (right_gen k ebase point2 ebase_on point2_on point2_4). generalize (1 + kB) (1 + k). intros a b.
  rewrite base_inj. rewrite Zmult_mod_idemp_r. split; [ apply cancel4 | ].
  intro H. rewrite <- (Zmult_mod_idemp_r a 4), H, Zmult_mod_idemp_r. reflexivity.
Qed.
Local Opaque sigm pubm.
(* accepted, but not valid by RFC 8032, although everything is canonical *)
Theorem mixed_refuted : exists pub sig message A R, rfc_decodes pub A /\ rfc_decodes (firstn 57 sig) R /\ bytes sig /\ length sig = 114%nat /\
  le_val (skipn 57 sig) < q448 /\ ed448_verify shake256 pub sig message = Some (Ok true) /\ ~ rfc_valid shake256 pub sig message.
Proof.
  exists pubm, sigm, [], (eadd ebase point2), ebase. destruct sigm_parts as (B & L & F1 & F2).
  assert (CA : on_curve (eadd ebase point2)) by (apply eadd_on; [ exact ebase_on | exact point2_on ]).
  assert (EP : pubm = eencode (eadd ebase point2)) by reflexivity.
  assert (NA : denotes pubm (eadd ebase point2)) by (rewrite EP; apply denotes_eencode; exact CA).
  split; [ split; [ exact CA | reflexivity ] | ]. rewrite F1. split; [ split; [ exact ebase_on | reflexivity ] | ]. split; [ exact B | ].
  split; [ exact L | ]. split; [ rewrite sigm_S; apply Z.mod_pos_bound; reflexivity | ].
  assert (F : firstn 57 (skipn 57 sigm) = skipn 57 sigm) by (apply firstn_all2; rewrite skipn_length, L; apply Nat.le_refl).
  split.
  - apply (verify_accepts shake256 shake256_xof pubm sigm [] (eadd ebase point2) ebase).
    + rewrite EP. apply eencode_bytes.
    + exact B.
    + rewrite L. apply Nat.le_refl.
    + rewrite EP. intros [ Z | Z ]; [ exact (base2_not_zero Z) | ]. rewrite Z in F1. apply base_not_zero. symmetry. exact F1.
    + rewrite EP. exact base2_decodable.
    + rewrite F1. exact base_decodable.
    + exact NA.
    + rewrite F1. exact base_denotes.
    + rewrite F, F1, sigm_S, (subgroup_alias ebase point2 ebase_on point2_on point2_4), (subgroup_id ebase ebase_on base_q).
      apply equation_base. reflexivity.
  - intros (A & R & (CA' & EA) & (CR & ER) & _ & _ & Q). rewrite F1 in ER, Q. rewrite EP in EA. apply (eencode_inj _ _ CA CA') in EA. subst A.
    apply (eencode_inj _ _ ebase_on CR) in ER. subst R. rewrite sigm_S in Q. apply equation_base in Q.
    apply challenges_differ. revert Q. generalize (rfc_challenge shake256 (eencode ebase) pubm []) kB. exact minus_one.
Qed.
Lemma honest_case : exists pub sig, length key4 = 57%nat /\ bytes key4 /\
  ed448_derive_public shake256 key4 = Some pub /\ ed448_sign shake256 key4 [1; 2] = Some sig.
Proof.
  destruct key4_ok as (L & B & _). eexists. eexists. split; [ exact L | ]. split; [ exact B | ].
  split; [ exact (derive_public_ok shake256 shake256_xof key4 L B) | exact (sign_ok shake256 shake256_xof key4 [1; 2] L B) ].
Qed.
Lemma mixed_case : exists pub A, rfc_decodes pub A /\ subgroup_part A <> ezero /\ subgroup_part A <> A.
Proof.
  exists (eencode (eadd ebase point2)), (eadd ebase point2).
  assert (CA : on_curve (eadd ebase point2)) by (apply eadd_on; [ exact ebase_on | exact point2_on ]).
  split; [ split; [ exact CA | reflexivity ] | ].
  rewrite (subgroup_alias ebase point2 ebase_on point2_on point2_4), (subgroup_id ebase ebase_on base_q).
  split; [ exact ebase_nz | ]. intro E. apply base2_other. exact (f_equal eencode E).
Qed.
Lemma unique_case : length key4 = 57%nat /\ bytes key4 /\ length seed = 57%nat /\ bytes seed /\ key_scalar shake256 key4 <> key_scalar shake256 seed.
Proof.
  destruct key4_ok as (L & B & _). destruct seed_ok as (L' & B' & _). repeat (split; [ assumption | ]).
  apply Z.eqb_neq. vm_compute. reflexivity.
Qed.
