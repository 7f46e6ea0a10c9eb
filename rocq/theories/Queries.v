(* Which strings are hashed; the outcome of a verification depends on the message only through the
   challenge modulo q; the verification equation in discrete logarithms; how many signatures S leads to. *)
From Coq Require Import ZArith List Bool Lia Ring.
From Verif Require Import SpecField SpecBytes SpecScalar SpecCurve SpecDecode SpecEd448 SpecVerify SpecInternal SpecUniform SpecQueries.
From Verif Require Import Base Bytes ScalarModel ScalarProofs Errors ExtendedPoint Eddsa Goldilocks.
From Verif Require Import Arith Field Edwards Isogeny CombMul BaseTables PrimeQ Decode Ed448 Order Equation Facts Sound Kernel Uniform Count Witness Bind Protocol Structure SmallKeys.
Import ListNotations.
Open Scope Z_scope.

Local Opaque emul eencode eadd subgroup_part q448 ebase le_bytes rfc_dom.

Lemma public_57 : forall H, is_xof H -> forall key, secret_scalar (H key 114%nat) = secret_scalar (H key 57%nat).
Proof.
  intros H X key. destruct (X key) as (_ & P). rewrite (P 57%nat 114%nat) by lia. unfold secret_scalar. rewrite firstn_firstn. reflexivity.
Qed.
Theorem derive_queries : forall H H', is_xof H -> is_xof H' -> forall key, length key = 57%nat -> bytes key -> agree H H' (derive_inputs key) ->
  ed448_derive_public H key = ed448_derive_public H' key.
Proof.
  intros H H' X X' key L B G. rewrite (derive_public_ok H X key L B), (derive_public_ok H' X' key L B).
  unfold derive_inputs, agree in G. destruct (enc_sign key); [ reflexivity | ]. unfold rfc_public. rewrite (G key) by (left; reflexivity). reflexivity.
Qed.
Theorem sign_queries : forall H H', is_xof H -> is_xof H' -> forall key message, length key = 57%nat -> bytes key ->
  agree H H' (sign_inputs H key message) -> ed448_sign H key message = ed448_sign H' key message.
Proof.
  intros H H' X X' key message L B G. rewrite (sign_ok H X key message L B), (sign_ok H' X' key message L B).
  unfold sign_inputs, derive_inputs, sign_prefix, key_scalar, agree in G. cbv zeta in G. unfold rfc_sign, rfc_public, rfc_sign_with. cbv zeta.
  destruct (enc_sign key).
  - pose proof (G _ (or_introl eq_refl)) as G1. pose proof (G _ (or_intror (or_introl eq_refl))) as G2. rewrite <- G1, <- G2. reflexivity.
  - pose proof (G _ (or_introl eq_refl)) as G0. pose proof (G _ (or_intror (or_introl eq_refl))) as G1. pose proof (G _ (or_intror (or_intror (or_introl eq_refl)))) as G2.
    rewrite <- G0, <- G1, <- G2. reflexivity.
Qed.

(* the verifier, for any string: only the challenge modulo q matters *)
Lemma decode_long_same : forall x y, bytes x -> bytes y -> length x = 114%nat -> length y = 114%nat -> le_val x mod q448 = le_val y mod q448 -> decode_long x = decode_long y.
Proof.
  intros x y Bx By Lx Ly E.
  destruct (decode_long_ok x Bx) as (u & Eu & (Wu & _) & Vu); [ rewrite Lx; reflexivity | ].
  destruct (decode_long_ok y By) as (v & Ev & (Wv & _) & Vv); [ rewrite Ly; reflexivity | ].
  rewrite Eu, Ev. f_equal. apply wf_inj; [ exact Wu | exact Wv | ]. rewrite Vu, Vv. exact E.
Qed.
Lemma dsa_verify_challenge : forall H H', is_xof H -> is_xof H' -> forall pub sig m m',
  (forall p penc, eddsa_like_decode pub = Some (Ok p) -> eddsa_like_encode p = Some penc ->
    rfc_challenge H (firstn 57 sig) penc m mod q448 = rfc_challenge H' (firstn 57 sig) penc m' mod q448) ->
  dsa_verify H pub sig m = dsa_verify H' pub sig m'.
Proof.
  intros H H' X X' pub sig m m' G. unfold dsa_verify. destruct (eddsa_like_decode pub) as [[p|e]|]; [ | reflexivity | reflexivity ].
  rewrite !bind_Some. cbv beta iota. destruct (point_scalar_mul p scalar_four) as [p2|]; [ | reflexivity ]. rewrite !bind_Some. cbv beta.
  destruct (slice sig 0 57) as [s1|] eqn:E1; [ | reflexivity ]. rewrite !bind_Some. cbv beta.
  assert (F : s1 = firstn 57 sig).
  { revert E1. unfold slice. destruct (Nat.leb 0 57 && Nat.leb 57 (length sig)); [ | discriminate ]. intro E. apply some_inj in E. symmetry. exact E. }
  destruct (slice sig 57 (57 + 57)) as [s2|]; [ | reflexivity ]. rewrite !bind_Some. cbv beta.
  destruct (eddsa_like_decode s1) as [[r|e]|]; [ | reflexivity | reflexivity ]. rewrite !bind_Some. cbv beta iota.
  destruct (point_scalar_mul r scalar_four) as [r4|]; [ | reflexivity ]. rewrite !bind_Some. cbv beta.
  destruct (eddsa_like_encode p) as [penc|] eqn:E2; [ | reflexivity ]. rewrite !bind_Some. cbv beta zeta.
  assert (ED : decode_long (hash_with_dom H (s1 ++ penc ++ m) 114) = decode_long (hash_with_dom H' (s1 ++ penc ++ m') 114)).
  { unfold hash_with_dom. change DOM with rfc_dom. subst s1.
    apply decode_long_same; [ apply xof_bytes; exact X | apply xof_bytes; exact X' | apply xof_len; exact X | apply xof_len; exact X' | exact (G p penc eq_refl E2) ]. }
  rewrite ED. reflexivity.
Qed.
Lemma hashed_key : forall pub A p penc, bytes pub -> denotes pub A -> eddsa_like_decode pub = Some (Ok p) -> eddsa_like_encode p = Some penc -> penc = eencode (subgroup_part A).
Proof.
  intros pub A p penc B N D E. destruct (encode_decode_gen pub A B (proj1 (decode_iff pub B) p D) N) as (p' & D' & E').
  rewrite D in D'. apply some_inj in D'. injection D' as <-. rewrite E in E'. apply some_inj in E'. exact E'.
Qed.
Theorem verify_challenge : forall H H', is_xof H -> is_xof H' -> forall pub sig m m' A, bytes pub -> denotes pub A ->
  rfc_challenge H (firstn 57 sig) (eencode (subgroup_part A)) m mod q448 = rfc_challenge H' (firstn 57 sig) (eencode (subgroup_part A)) m' mod q448 ->
  ed448_verify H pub sig m = ed448_verify H' pub sig m'.
Proof.
  intros H H' X X' pub sig m m' A B N G. unfold ed448_verify. rewrite (dsa_verify_challenge H H' X X' pub sig m m'); [ reflexivity | ].
  intros p penc D E. rewrite (hashed_key pub A p penc B N D E). exact G.
Qed.
Theorem verify_queries : forall H H', is_xof H -> is_xof H' -> forall pub sig message A, bytes pub -> denotes pub A ->
  agree H H' (verify_inputs A sig message) -> ed448_verify H pub sig message = ed448_verify H' pub sig message.
Proof.
  intros H H' X X' pub sig message A B N G. apply (verify_challenge H H' X X' pub sig message message A B N).
  unfold rfc_challenge. rewrite (G _ (or_introl eq_refl)). reflexivity.
Qed.
Theorem collision_transfers : forall H, is_xof H -> forall pub sig m m' A, bytes pub -> denotes pub A ->
  rfc_challenge H (firstn 57 sig) (eencode (subgroup_part A)) m mod q448 = rfc_challenge H (firstn 57 sig) (eencode (subgroup_part A)) m' mod q448 ->
  ed448_verify H pub sig m = ed448_verify H pub sig m'.
Proof. intros H X. exact (verify_challenge H H X X). Qed.

(* the equation between discrete logarithms *)
Lemma four_part : forall A, on_curve A -> emul 4 (subgroup_part A) = emul 4 A.
Proof.
  intros A C. Transparent subgroup_part. unfold subgroup_part. Opaque subgroup_part. rewrite <- (emul_mul 4 (q448 + 1) A C). replace (4 * (q448 + 1)) with (4 * q448 + 4) by ring.
  rewrite (emul_add (4 * q448) 4 A C), (order_4q A C). apply eadd_0_l.
Qed.
Theorem equation_linear : forall A R x r S k, on_curve A -> on_curve R -> subgroup_part A = emul x ebase -> subgroup_part R = emul r ebase ->
  (rfc_equation S R k A <-> S mod q448 = (r + k * x) mod q448).
Proof.
  intros A R x r S k CA CR EA ER. unfold rfc_equation.
  assert (E1 : emul 4 R = emul (4 * r) ebase) by (rewrite <- (four_part R CR), ER, <- (emul_mul 4 r ebase ebase_on); reflexivity).
  assert (E2 : emul (4 * k) A = emul (k * (4 * x)) ebase).
  { rewrite (Z.mul_comm 4 k), (emul_mul k 4 A CA), <- (four_part A CA), EA, <- (emul_mul 4 x ebase ebase_on), <- (emul_mul k (4 * x) ebase ebase_on). reflexivity. }
  rewrite E1, E2, <- (emul_add (4 * r) (k * (4 * x)) ebase ebase_on). replace (4 * r + k * (4 * x)) with (4 * (r + k * x)) by ring. rewrite base_inj. split.
  - apply cancel4.
  - intro E. rewrite <- (Z.mul_mod_idemp_r 4 S), <- (Z.mul_mod_idemp_r 4 (r + k * x)), E by exact q448_nz. reflexivity.
Qed.
Lemma part_log : forall A, on_curve A -> exists x, 0 <= x < q448 /\ subgroup_part A = emul x ebase.
Proof. intros A C. apply q_points; [ exact (emul_on (q448 + 1) A C) | exact (subgroup_q A C) ]. Qed.

(* both the public key and R have a logarithm, and the verifier compares S with r + k x *)
Theorem verify_linear : forall xof, is_xof xof -> forall pub sig message A R, bytes pub -> bytes sig -> (114 <= length sig)%nat -> ~ zero_input pub sig ->
  decodable pub -> decodable (firstn 57 sig) -> denotes pub A -> denotes (firstn 57 sig) R ->
  exists x r, 0 <= x < q448 /\ 0 <= r < q448 /\ subgroup_part A = emul x ebase /\ subgroup_part R = emul r ebase /\
  let k := rfc_challenge xof (firstn 57 sig) (eencode (emul x ebase)) message in
  let S := le_val (firstn 57 (skipn 57 sig)) in
  (S mod q448 = (r + k * x) mod q448 -> ed448_verify xof pub sig message = Some (Ok true)) /\
  (ed448_verify xof pub sig message = Some (Ok true) -> S mod q448 = (r + k * x) mod q448 \/ false_positive xof pub sig message).
Proof.
  intros xof X pub sig message A R B1 B2 L NZ D1 D2 N1 N2. destruct (part_log A (proj1 N1)) as (x & Hx & Ex). destruct (part_log R (proj1 N2)) as (r & Hr & Er).
  exists x, r. split; [ exact Hx | ]. split; [ exact Hr | ]. split; [ exact Ex | ]. split; [ exact Er | ]. cbv zeta. rewrite <- Ex.
  pose proof (equation_linear A R x r (le_val (firstn 57 (skipn 57 sig))) (rfc_challenge xof (firstn 57 sig) (eencode (subgroup_part A)) message) (proj1 N1) (proj1 N2) Ex Er) as EQ.
  split.
  - intro E. apply (verify_accepts xof X pub sig message A R B1 B2 L NZ D1 D2 N1 N2). apply EQ. exact E.
  - intro V. destruct (verify_true xof X pub sig message A R B1 B2 NZ N1 N2 V) as [ E | F ]; [ left; apply EQ; exact E | right; exact F ].
Qed.

(* how many strings of 57 bytes stand for a number with a given remainder modulo q *)
Lemma residue_count : forall s, 0 <= s < q448 ->
  zsum (fun z => if z mod q448 =? s then 1 else 0) (2 ^ 456) = if s <? 1024 * (2 ^ 446 - q448) then 1025 else 1024.
Proof.
  intros s Hs. assert (Q : 0 < q448 < 2 ^ 446) by (split; reflexivity). assert (Q2 : 1024 * (2 ^ 446 - q448) < q448) by reflexivity.
  set (rest := 1024 * (2 ^ 446 - q448)) in *.
  assert (E : 2 ^ 456 = q448 * 1024 + rest) by (unfold rest; change (2 ^ 456) with (1024 * 2 ^ 446); ring).
  assert (R : 0 <= rest) by (unfold rest; lia). clearbody rest. rewrite E, zsum_app by lia. rewrite zsum_mul by lia.
  assert (M : forall lo hi, 0 <= lo < q448 -> (lo + q448 * hi) mod q448 = lo).
  { intros lo hi H. rewrite (Z.mul_comm q448 hi), Z.mod_add by lia. apply Z.mod_small. exact H. }
  assert (S1 : zsum (fun lo => zsum (fun hi => if (lo + q448 * hi) mod q448 =? s then 1 else 0) 1024) q448 = 1024).
  { transitivity (zsum (fun i => if i =? s then 1024 else 0) q448); [ | apply zsum_point; exact Hs ]. apply zsum_ext. intros lo Hlo.
    rewrite (zsum_ext _ (fun _ => if lo =? s then 1 else 0)); [ rewrite zsum_const by lia; destruct (lo =? s); reflexivity | ].
    intros hi _. rewrite M by exact Hlo. reflexivity. }
  rewrite S1. assert (S2 : zsum (fun i => if (q448 * 1024 + i) mod q448 =? s then 1 else 0) rest = zsum (fun i => if i =? s then 1 else 0) rest).
  { apply zsum_ext. intros i Hi. rewrite (Z.add_comm (q448 * 1024) i), M by lia. reflexivity. }
  rewrite S2. destruct (Z.ltb_spec s rest) as [ LT | GE ].
  - rewrite zsum_point by lia. reflexivity.
  - rewrite zsum_zero; [ reflexivity | exact R | ]. intros i Hi. destruct (Z.eqb_spec i s); [ lia | reflexivity ].
Qed.
Lemma count_le : forall (A : Type) f g (l : list A), (forall x, In x l -> f x = true -> g x = true) -> tally f l <= tally g l.
Proof.
  intros A f g l. induction l as [ | x l IH ]; intro H; [ reflexivity | ]. cbn [tally]. pose proof (IH (fun y Hy => H y (or_intror Hy))) as K.
  pose proof (H x (or_introl eq_refl)) as K2. destruct (f x); [ rewrite (K2 eq_refl); lia | destruct (g x); lia ].
Qed.
Theorem S_count : forall s, 0 <= s < q448 ->
  tally (fun t => le_val t mod q448 =? s) (strings 57) = if s <? 1024 * (2 ^ 446 - q448) then 1025 else 1024.
Proof.
  intros s Hs. rewrite tally_strings. change (256 ^ Z.of_nat 57) with (2 ^ 456). rewrite <- (residue_count s Hs). apply zsum_ext. intros z Hz.
  rewrite le_val_le_bytes. change (256 ^ Z.of_nat 57) with (2 ^ 456). rewrite (Z.mod_small z) by exact Hz. reflexivity.
Qed.
Theorem S_variants : forall xof pub sig message, length sig = 114%nat -> bytes sig -> firstn 57 sig <> repeat 0 57 ->
  ed448_verify xof pub sig message = Some (Ok true) ->
  1024 <= tally (fun t => match ed448_verify xof pub (firstn 57 sig ++ t) message with Some (Ok b) => b | _ => false end) (strings 57).
Proof.
  intros xof pub sig message L B NZ V. pose proof (Z.mod_pos_bound (le_val (skipn 57 sig)) q448 eq_refl) as Hs.
  assert (C : 1024 <= tally (fun t => le_val t mod q448 =? le_val (skipn 57 sig) mod q448) (strings 57)).
  { rewrite (S_count _ Hs). destruct (_ <? _); lia. }
  eapply Z.le_trans; [ exact C | ]. apply count_le. intros t Ht E. apply in_strings in Ht. destruct Ht as (Lt & Bt). apply Z.eqb_eq in E.
  assert (LF : length (firstn 57 sig) = 57%nat) by (rewrite firstn_length, L; reflexivity).
  assert (F : firstn 57 (firstn 57 sig ++ t) = firstn 57 sig).
  { rewrite firstn_app, LF, Nat.sub_diag, firstn_O, app_nil_r. apply firstn_all2. rewrite LF. apply Nat.le_refl. }
  assert (K : skipn 57 (firstn 57 sig ++ t) = t).
  { rewrite skipn_app, LF, Nat.sub_diag, skipn_O, skipn_all2 by (rewrite LF; apply Nat.le_refl). reflexivity. }
  assert (ZZ : forall s, firstn 57 s = firstn 57 sig -> s <> repeat 0 114).
  { intros s Es Z0. apply NZ. rewrite <- Es, Z0. reflexivity. }
  rewrite <- (verify_S xof pub sig (firstn 57 sig ++ t) message); [ rewrite V; reflexivity | exact B | | rewrite L; lia | | apply ZZ; reflexivity | apply ZZ; exact F | symmetry; exact F | ].
  - apply bytes_app. split; [ apply bytes_firstn; exact B | exact Bt ].
  - rewrite app_length, LF, Lt. lia.
  - rewrite K, (firstn_all2 t) by lia. rewrite (firstn_all2 (skipn 57 sig)) by (rewrite skipn_length, L; lia). symmetry. exact E.
Qed.
