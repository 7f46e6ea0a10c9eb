(* Extraction and simulation of transcripts; the equation without cofactor; one signature under several
   keys; Ed448ph. *)
From Coq Require Import ZArith List Bool Lia Znumtheory Ring.
From Verif Require Import SpecField SpecBytes SpecScalar SpecCurve SpecDecode SpecEd448 SpecVerify SpecInternal SpecShake SpecUniform SpecApi SpecProtocol.
From Verif Require Import Base Bytes Errors Eddsa Goldilocks Lib.
From Verif Require Import Field Edwards Isogeny CombMul BaseTables PrimeQ Decode Ed448 Order Equation Facts Sound Shake Kernel Bind Alias Api Uniform Samples Samples2 Interop.
Import ListNotations.
Open Scope Z_scope.

Lemma sig_parts : forall P s, firstn 57 (eencode P ++ le_bytes 57 s) = eencode P /\ skipn 57 (eencode P ++ le_bytes 57 s) = le_bytes 57 s /\
  bytes (eencode P ++ le_bytes 57 s) /\ length (eencode P ++ le_bytes 57 s) = 114%nat.
Proof.
  intros P s. split; [ | split; [ | split ] ].
  - rewrite firstn_app, eencode_len, Nat.sub_diag, firstn_O, app_nil_r. apply firstn_all2. rewrite eencode_len. apply Nat.le_refl.
  - rewrite skipn_app, eencode_len, Nat.sub_diag, skipn_O, skipn_all2, app_nil_l by (rewrite eencode_len; apply Nat.le_refl). reflexivity.
  - apply bytes_app. split; [ apply eencode_bytes | apply le_bytes_bytes ].
  - rewrite app_length, eencode_len, le_bytes_length. reflexivity.
Qed.

(* an inverse modulo q *)
Lemma inverse_q : forall a, a mod q448 <> 0 -> exists b, (a * b) mod q448 = 1.
Proof.
  intros a N. assert (ND : ~ (q448 | a)) by (intro D; apply N; apply Z.mod_divide; [ discriminate | exact D ]).
  assert (RP : rel_prime q448 a) by (apply prime_rel_prime; [ exact q448_prime | exact ND ]).
  destruct (rel_prime_bezout q448 a RP) as [ u v E ]. exists v. replace (a * v) with (1 + - u * q448) by lia. rewrite Z.mod_add by discriminate. reflexivity.
Qed.
Lemma subgroup_q : forall A, on_curve A -> emul q448 (subgroup_part A) = ezero.
Proof.
  intros A C. unfold subgroup_part. rewrite <- emul_mul by exact C. replace (q448 * (q448 + 1)) with ((q448 + 1) / 4 * (4 * q448)).
  - rewrite emul_mul, order_4q by exact C. apply emul_ezero.
  - vm_compute. reflexivity.
Qed.
(* 4 k A determines the component of A in the group of B *)
Lemma solve_point : forall A k S, on_curve A -> k mod q448 <> 0 -> emul (4 * k) A = emul (4 * S) ebase ->
  exists x, 0 <= x < q448 /\ (k * x) mod q448 = S mod q448 /\ subgroup_part A = emul x ebase.
Proof.
  intros A k S C N E. destruct (inverse_q k N) as (b & Hb). exists ((S * b) mod q448).
  assert (EX : (k * ((S * b) mod q448)) mod q448 = S mod q448).
  { rewrite Z.mul_mod_idemp_r by discriminate. replace (k * (S * b)) with (k * b * S) by ring.
    rewrite <- Z.mul_mod_idemp_l, Hb, Z.mul_1_l by discriminate. reflexivity. }
  split; [ apply Z.mod_pos_bound; reflexivity | ]. split; [ exact EX | ].
  set (x := (S * b) mod q448) in *. clearbody x.
  pose proof (emul_on x ebase ebase_on) as CX. assert (CS : on_curve (subgroup_part A)) by (apply emul_on; exact C).
  assert (Z0 : eadd (subgroup_part A) (eneg (emul x ebase)) = ezero).
  { apply (emul_coprime _ q448 (4 * k)).
    - apply eadd_on; [ exact CS | apply eneg_on; exact CX ].
    - apply prime_rel_prime; [ exact q448_prime | ]. intro D. apply prime_mult in D; [ | exact q448_prime ]. destruct D as [ D | D ].
      + apply Z.divide_pos_le in D; [ | reflexivity ]. revert D. vm_compute. intro D. apply D. reflexivity.
      + apply N. apply Z.mod_divide; [ discriminate | exact D ].
    - rewrite emul_eadd by (try apply eneg_on; assumption). rewrite subgroup_q by exact C. rewrite eadd_0_l, <- emul_opp, <- emul_mul by exact ebase_on.
      rewrite Z.mul_comm, emul_mul, order_ok by exact ebase_on. apply emul_ezero.
    - rewrite emul_eadd by (try apply eneg_on; assumption). rewrite <- emul_opp, <- emul_mul by exact ebase_on.
      unfold subgroup_part. rewrite <- emul_mul by exact C. rewrite (Z.mul_comm (4 * k)), emul_mul, E by exact C.
      rewrite <- emul_mul, <- emul_add by exact ebase_on.
      replace ezero with (emul 0 ebase) by reflexivity. apply base_inj.
      replace ((q448 + 1) * (4 * S) + 4 * k * - x) with (4 * (S - k * x) + 4 * S * q448) by ring. rewrite Z.mod_add by discriminate.
      rewrite <- Z.mul_mod_idemp_r, Zminus_mod, EX, Z.sub_diag by discriminate. reflexivity. }
  apply (f_equal (fun P => eadd P (emul x ebase))) in Z0. rewrite eadd_0_l, eadd_assoc, eadd_neg_l, eadd_0_r in Z0; try assumption. apply eneg_on. exact CX.
Qed.
(* two accepted transcripts with the same R and different challenges: the secret follows *)
Theorem extraction : forall H H', is_xof H -> is_xof H' -> forall pub sig sig' m m' A R,
  bytes pub -> bytes sig -> bytes sig' -> denotes pub A -> denotes (firstn 57 sig) R -> firstn 57 sig = firstn 57 sig' ->
  ed448_verify H pub sig m = Some (Ok true) -> ed448_verify H' pub sig' m' = Some (Ok true) ->
  let k := rfc_challenge H (firstn 57 sig) (eencode (subgroup_part A)) m in
  let k' := rfc_challenge H' (firstn 57 sig) (eencode (subgroup_part A)) m' in
  let S := le_val (firstn 57 (skipn 57 sig)) in let S' := le_val (firstn 57 (skipn 57 sig')) in
  k mod q448 <> k' mod q448 ->
  (exists x, 0 <= x < q448 /\ ((k - k') * x) mod q448 = (S - S') mod q448 /\ subgroup_part A = emul x ebase) \/
  false_positive H pub sig m \/ false_positive H' pub sig' m'.
Proof.
  intros H H' X X' pub sig sig' m m' A R B1 B2 B3 N1 N2 E V V' k k' S S' NE.
  destruct (verify_case H X pub sig m A R B1 B2 N1 N2 V) as [ Q | Q ]; [ | right; left; exact Q ].
  pose proof N2 as N2'. rewrite E in N2'. destruct (verify_case H' X' pub sig' m' A R B1 B3 N1 N2' V') as [ Q' | Q' ]; [ | right; right; exact Q' ].
  left. rewrite <- E in Q'. fold k in Q. fold k' in Q'. fold S in Q. fold S' in Q'. clearbody k k' S S'.
  pose proof (proj1 N1) as CA. pose proof (proj1 N2) as CR. apply (solve_point A (k - k') (S - S') CA).
  - intro Z0. apply NE. apply Z.mod_divide in Z0; [ | discriminate ]. destruct Z0 as (c & Hc). replace k with (k' + c * q448) by lia. apply Z.mod_add. discriminate.
  - unfold rfc_equation in Q, Q'. replace (4 * (S - S')) with (4 * S + - (4 * S')) by ring. replace (4 * (k - k')) with (4 * k + - (4 * k')) by ring.
    rewrite (emul_add (4 * S)) by exact ebase_on. rewrite (emul_add (4 * k)) by exact CA. rewrite !emul_opp, Q, Q'. clear - CA CR.
    pose proof (emul_on 4 R CR) as C1. pose proof (emul_on (4 * k) A CA) as C2. pose proof (emul_on (4 * k') A CA) as C3.
    revert C1 C2 C3. generalize (emul 4 R) (emul (4 * k) A) (emul (4 * k') A). intros U V W CU CV CW.
    pose proof (eneg_on U CU) as NU. pose proof (eneg_on W CW) as NW.
    assert (EN : eneg (eadd U W) = eadd (eneg U) (eneg W)).
    { apply eneg_add; assumption. }
    rewrite EN, (eadd_comm U V), (eadd_assoc V U) by (try apply eadd_on; assumption).
    rewrite <- (eadd_assoc U (eneg U)) by assumption. rewrite eadd_neg, eadd_0_l by exact CU. reflexivity.
Qed.

(* for a derived public key this is the secret scalar *)
Theorem extraction_key : forall H, is_xof H -> forall key pub x, length key = 57%nat -> bytes key -> ed448_derive_public H key = Some pub ->
  0 <= x < q448 -> forall A, rfc_decodes pub A -> subgroup_part A = emul x ebase -> x = key_scalar H key mod q448.
Proof.
  intros H X key pub x L B E Rx A (CA & EP) EA. rewrite (key_public H X key L B) in E. apply some_inj in E. subst pub.
  set (s := key_scalar H key) in *. clearbody s. pose proof (emul_on s ebase ebase_on) as CS.
  assert (ES : A = emul s ebase) by (symmetry; apply (eencode_inj _ _ CS CA); exact EP).
  subst A. unfold subgroup_part in EA. rewrite <- emul_mul in EA by exact ebase_on. apply base_inj in EA.
  rewrite (Z.mod_small x) in EA by exact Rx. rewrite <- EA. replace ((q448 + 1) * s) with (s + s * q448) by ring. apply Z.mod_add. discriminate.
Qed.

(* programming the hash *)
Lemma repeat_app_firstn : forall n n' (v : list Z), (n <= n')%nat -> firstn n (v ++ repeat 0 n) = firstn n (firstn n' (v ++ repeat 0 n')).
Proof.
  intros n n' v L. rewrite firstn_firstn, Nat.min_l by exact L. rewrite !firstn_app. f_equal.
  assert (K : forall a b c, (a <= b)%nat -> (a <= c)%nat -> firstn a (repeat 0 b) = firstn a (repeat 0 c)).
  { induction a as [|a IH]; intros [|b] [|c] P1 P2; try reflexivity; try lia. cbn [repeat firstn]. f_equal. apply IH; lia. }
  apply K; lia.
Qed.
Lemma programmed_xof : forall H input v, is_xof H -> bytes v -> is_xof (programmed H input v).
Proof.
  intros H input v X B x. unfold programmed. destruct (same_string x input); [ | apply X ]. split.
  - intro n. split; [ rewrite firstn_length, app_length, repeat_length; lia | ].
    assert (BB : bytes (v ++ repeat 0 n)) by (apply bytes_app; split; [ exact B | apply bytes_repeat0 ]).
    rewrite <- (firstn_skipn n (v ++ repeat 0 n)) in BB. apply bytes_app in BB. exact (proj1 BB).
  - intros n n' L. apply repeat_app_firstn. exact L.
Qed.
Lemma programmed_at : forall H input v n, length v = n -> programmed H input v input n = v.
Proof.
  intros H input v n L. unfold programmed. rewrite (proj2 (same_string_eq input input) eq_refl). rewrite firstn_app, L, Nat.sub_diag, firstn_O, app_nil_r.
  apply firstn_all2. rewrite L. apply Nat.le_refl.
Qed.
Lemma programmed_else : forall H input v x n, x <> input -> programmed H input v x n = H x n.
Proof.
  intros H input v x n N. unfold programmed. destruct (same_string x input) eqn:E; [ | reflexivity ]. apply same_string_eq in E. exfalso. exact (N E).
Qed.
(* a transcript made without the secret, for a hash changed at one input *)
Theorem simulation : forall H, is_xof H -> forall pub A S k message, bytes pub -> pub <> repeat 0 57 -> decodable pub -> denotes pub A ->
  0 <= S < 256 ^ 57 -> 0 <= k < 256 ^ 114 ->
  let R := eadd (emul S ebase) (eneg (emul k A)) in
  let sig := eencode R ++ le_bytes 57 S in
  let input := rfc_dom ++ eencode R ++ eencode (subgroup_part A) ++ message in
  let H' := programmed H input (le_bytes 114 k) in
  decodable (eencode R) -> sig <> repeat 0 114 ->
  is_xof H' /\ (forall x n, x <> input -> H' x n = H x n) /\ le_val (H' input 114%nat) = k /\ ed448_verify H' pub sig message = Some (Ok true).
Proof.
  intros H X pub A S k message B NZ D N RS Rk R sig input H' DR NS.
  pose proof (proj1 N) as CA. pose proof (emul_on S ebase ebase_on) as C1. pose proof (emul_on k A CA) as C2.
  assert (CR : on_curve R) by (unfold R; apply eadd_on; [ exact C1 | apply eneg_on; exact C2 ]).
  assert (X' : is_xof H') by (unfold H'; apply programmed_xof; [ exact X | apply le_bytes_bytes ]).
  assert (VK : le_val (H' input 114%nat) = k).
  { unfold H'. rewrite programmed_at by apply le_bytes_length. rewrite le_val_le_bytes. apply Z.mod_small. exact Rk. }
  split; [ exact X' | ]. split; [ intros x n Hx; apply programmed_else; exact Hx | ]. split; [ exact VK | ].
  destruct (sig_parts R S) as (F1 & F2 & F3 & F4).
  apply (verify_accepts H' X' pub sig message A R); unfold sig; rewrite ?F1, ?F2; try assumption.
  - rewrite F4. apply Nat.le_refl.
  - intros [ K | K ]; [ exact (NZ K) | exact (NS K) ].
  - apply denotes_eencode. exact CR.
  - rewrite firstn_all2 by (rewrite le_bytes_length; apply Nat.le_refl). rewrite le_val_le_bytes.
    rewrite Z.mod_small by exact RS.
    unfold rfc_challenge. fold input. rewrite VK. unfold rfc_equation. clear - C1 C2 CA.
    rewrite (emul_mul 4 S) by exact ebase_on. rewrite (emul_mul 4 k) by exact CA. unfold R. revert C1 C2. generalize (emul S ebase) (emul k A). intros U V CU CV.
    pose proof (eneg_on V CV) as NV. rewrite <- emul_eadd by (try apply eadd_on; assumption). f_equal. rewrite eadd_assoc, eadd_neg_l, eadd_0_r by assumption. reflexivity.
Qed.

(* the equation without cofactor *)
Lemma with_plain : forall H s prefix message, let sig := rfc_sign_with H s prefix (eencode (emul s ebase)) message in
  exists r, rfc_decodes (firstn 57 sig) (emul r ebase) /\
  plain_equation (le_val (skipn 57 sig)) (emul r ebase) (rfc_challenge H (firstn 57 sig) (eencode (emul s ebase)) message) (emul s ebase).
Proof.
  intros H s prefix message sig. unfold sig, rfc_sign_with. cbv zeta.
  set (r := le_val (H (rfc_dom ++ prefix ++ message) 114%nat)). clearbody r. exists r.
  set (k := le_val (H (rfc_dom ++ eencode (emul r ebase) ++ eencode (emul s ebase) ++ message) 114%nat)).
  destruct (sig_parts (emul r ebase) ((r + k * s) mod q448)) as (F1 & F2 & _). rewrite F1, F2.
  split; [ split; [ apply emul_on; exact ebase_on | reflexivity ] | ]. rewrite le_val_le_bytes.
  rewrite Z.mod_small by (pose proof (Z.mod_pos_bound (r + k * s) q448 ltac:(reflexivity)) as K; revert K; generalize ((r + k * s) mod q448); intros y K; assert (q448 < 256 ^ Z.of_nat 57) by (vm_compute; reflexivity); lia).
  unfold rfc_challenge. fold k. clearbody k. unfold plain_equation. rewrite emul_mod by (first [ exact ebase_on | exact order_ok | discriminate ]).
  rewrite emul_add, (emul_mul k s) by exact ebase_on. reflexivity.
Qed.
Theorem honest_plain : forall H, is_xof H -> forall key message pub sig, length key = 57%nat -> bytes key ->
  ed448_derive_public H key = Some pub -> ed448_sign H key message = Some sig ->
  exists A R, rfc_decodes pub A /\ rfc_decodes (firstn 57 sig) R /\ emul q448 A = ezero /\ emul q448 R = ezero /\
  plain_equation (le_val (skipn 57 sig)) R (rfc_challenge H (firstn 57 sig) pub message) A.
Proof.
  intros H X key message pub sig L B E1 E2. rewrite (derive_public_ok H X key L B) in E1. rewrite (sign_ok H X key message L B) in E2.
  apply some_inj in E1. apply some_inj in E2.
  assert (Q : forall n, emul q448 (emul n ebase) = ezero).
  { intro n. rewrite <- emul_mul by exact ebase_on. rewrite Z.mul_comm, emul_mul, order_ok by exact ebase_on. apply emul_ezero. }
  assert (G : forall s prefix, exists A R, rfc_decodes (eencode (emul s ebase)) A /\ rfc_decodes (firstn 57 (rfc_sign_with H s prefix (eencode (emul s ebase)) message)) R /\
    emul q448 A = ezero /\ emul q448 R = ezero /\
    plain_equation (le_val (skipn 57 (rfc_sign_with H s prefix (eencode (emul s ebase)) message))) R
      (rfc_challenge H (firstn 57 (rfc_sign_with H s prefix (eencode (emul s ebase)) message)) (eencode (emul s ebase)) message) A).
  { intros s prefix. destruct (with_plain H s prefix message) as (r & D & P). exists (emul s ebase), (emul r ebase).
    split; [ split; [ apply emul_on; exact ebase_on | reflexivity ] | ]. split; [ exact D | ]. split; [ apply Q | ]. split; [ apply Q | exact P ]. }
  destruct (enc_sign key); rewrite <- E1, <- E2.
  - apply G.
  - unfold rfc_sign, rfc_public. cbv zeta. apply G.
Qed.
Local Opaque emul eencode eadd point2 subgroup_part ed448_verify q448.
Lemma base2_q : forall k, emul (4 * ((1 + k) mod q448)) ebase = eadd (emul 4 (eadd ebase point2)) (emul (4 * k) ebase).
Proof.
  intro k. rewrite mod_4q_mul by exact ebase_on. rewrite (emul_eadd 4 ebase point2 ebase_on point2_on), point2_4, eadd_0_r.
  rewrite <- emul_add by exact ebase_on. f_equal. ring.
Qed.
Lemma not_plain : forall k, ~ plain_equation ((1 + k) mod q448) (eadd ebase point2) k ebase.
Proof.
  intros k E. unfold plain_equation in E. rewrite emul_mod in E by (first [ exact ebase_on | exact order_ok | discriminate ]).
  rewrite emul_add, emul_1 in E by exact ebase_on.
  rewrite (eadd_comm ebase (emul k ebase)), (eadd_comm (eadd ebase point2) (emul k ebase)) in E.
  apply eadd_cancel_l in E; [ | apply emul_on; exact ebase_on | exact ebase_on | apply eadd_on; [ exact ebase_on | exact point2_on ] ].
  apply base2_other. exact (f_equal eencode E).
Qed.
Lemma small_S : forall k, le_val (le_bytes 57 ((1 + k) mod q448)) = (1 + k) mod q448 /\ (1 + k) mod q448 < q448.
Proof.
  intro k. pose proof (Z.mod_pos_bound (1 + k) q448 ltac:(reflexivity)) as K. split; [ | apply K ]. rewrite le_val_le_bytes. apply Z.mod_small. revert K.
  generalize ((1 + k) mod q448). intros y K. assert (q448 < 256 ^ Z.of_nat 57) by (vm_compute; reflexivity). lia.
Qed.
(* accepted, and valid by RFC 8032, but not for a verifier that omits the cofactor *)
Theorem plain_refuted : forall H, is_xof H -> forall message, exists pub sig A R, rfc_decodes pub A /\ emul q448 A = ezero /\ A <> ezero /\
  rfc_decodes (firstn 57 sig) R /\ rfc_valid H pub sig message /\ ed448_verify H pub sig message = Some (Ok true) /\
  ~ plain_equation (le_val (skipn 57 sig)) R (rfc_challenge H (firstn 57 sig) pub message) A.
Proof.
  intros H X message. set (R := eadd ebase point2). assert (CR : on_curve R) by (apply eadd_on; [ exact ebase_on | exact point2_on ]).
  set (k := rfc_challenge H (eencode R) (eencode ebase) message).
  destruct (sig_parts R ((1 + k) mod q448)) as (F1 & F2 & F3 & F4). destruct (small_S k) as (ES & LS).
  exists (eencode ebase), (eencode R ++ le_bytes 57 ((1 + k) mod q448)), ebase, R. rewrite F1, F2, ES.
  assert (V : rfc_valid H (eencode ebase) (eencode R ++ le_bytes 57 ((1 + k) mod q448)) message).
  { exists ebase, R. rewrite F1, F2, ES. split; [ split; [ exact ebase_on | reflexivity ] | ]. split; [ split; [ exact CR | reflexivity ] | ].
    split; [ exact F4 | ]. split; [ exact LS | ]. fold k. exact (base2_q k). }
  split; [ split; [ exact ebase_on | reflexivity ] | ]. split; [ exact base_q | ]. split; [ exact ebase_nz | ]. split; [ split; [ exact CR | reflexivity ] | ].
  split; [ exact V | ]. split.
  - apply (rfc_accepts H X (eencode ebase) _ message ebase F3 V).
    + split; [ exact ebase_on | reflexivity ].
    + exact base_q.
    + intro Z0. apply (f_equal (firstn 57)) in Z0. rewrite F1 in Z0. exact (base2_not_zero Z0).
    + exact base_decodable.
    + rewrite F1. exact base2_decodable.
  - fold k. exact (not_plain k).
Qed.
(* what an accepted signature gives a verifier that omits the cofactor: the equation up to a point of order
   1, 2 or 4 *)
Theorem plain_torsion : forall S R k A, on_curve R -> on_curve A ->
  (rfc_equation S R k A <-> exists T, on_curve T /\ emul 4 T = ezero /\ plain_equation S (eadd R T) k A).
Proof.
  intros S R k A CR CA. unfold rfc_equation, plain_equation. pose proof (emul_on k A CA) as C1. pose proof (emul_on S ebase ebase_on) as C2.
  rewrite (emul_mul 4 S) by exact ebase_on. rewrite (emul_mul 4 k) by exact CA. revert C1 C2. generalize (emul S ebase) (emul k A). intros U V CV CU. clear S k A CA.
  pose proof (eneg_on V CV) as NV. pose proof (eneg_on R CR) as NR. pose proof (eadd_on R V CR CV) as CRV. pose proof (eneg_on _ CRV) as NRV. split.
  - intro E. exists (eadd U (eneg (eadd R V))). split; [ apply eadd_on; assumption | ]. split.
    + rewrite emul_eadd by assumption. rewrite E, <- emul_eadd by assumption.
      rewrite <- emul_eadd by assumption. rewrite eadd_neg by exact CRV. apply emul_ezero.
    + rewrite (eadd_comm R), eadd_assoc by (try apply eadd_on; assumption). rewrite eadd_assoc by (try apply eadd_on; assumption).
      rewrite eadd_neg_l, eadd_0_r by exact CRV. reflexivity.
  - intros (T & CT & T4 & E). rewrite E. rewrite emul_eadd by (try apply eadd_on; assumption). rewrite emul_eadd, T4, eadd_0_r by assumption. reflexivity.
Qed.

(* one signature under two keys *)
Theorem alias_accepts : forall H, is_xof H -> forall key message pub sig A T pub', length key = 57%nat -> bytes key ->
  ed448_derive_public H key = Some pub -> ed448_sign H key message = Some sig -> decodable pub -> decodable (firstn 57 sig) ->
  rfc_decodes pub A -> on_curve T -> emul 4 T = ezero -> pub' = eencode (eadd A T) -> decodable pub' -> pub' <> repeat 0 57 ->
  ed448_verify H pub' sig message = Some (Ok true).
Proof.
  intros H X key message pub sig A T pub' L B E1 E2 D1 D2 (CA & EA) CT T4 EP D3 NZ.
  pose proof (proj2 (honest_verifies H X key message pub sig L B E1 E2) (conj D1 D2)) as V.
  assert (CAT : on_curve (eadd A T)) by (apply eadd_on; assumption).
  destruct (sign_canonical H X key message sig L B E2) as (_ & Bs & _).
  rewrite <- V. symmetry. apply (alias_same H X pub pub' sig message A T); try assumption.
  - rewrite EA. apply eencode_bytes.
  - rewrite EP. apply eencode_bytes.
  - intro Z0. destruct (verify_errors H X pub sig message) as ((_ & Z1) & _); [ rewrite EA; apply eencode_bytes | exact Bs | ].
    rewrite Z1 in V; [ discriminate V | left; exact Z0 ].
  - rewrite EA. apply denotes_eencode. exact CA.
  - rewrite EP. apply denotes_eencode. exact CAT.
Qed.
Theorem two_keys_refuted : forall H, is_xof H -> forall message, exists pub pub' sig, pub <> pub' /\
  (exists A, rfc_decodes pub A /\ emul q448 A = ezero /\ A <> ezero) /\ (exists A', rfc_decodes pub' A') /\ rfc_valid H pub sig message /\
  ed448_verify H pub sig message = Some (Ok true) /\ ed448_verify H pub' sig message = Some (Ok true).
Proof.
  intros H X message.
  set (k := rfc_challenge H (eencode ebase) (eencode ebase) message).
  destruct (sig_parts ebase ((1 + k) mod q448)) as (F1 & F2 & F3 & F4). destruct (small_S k) as (ES & LS).
  set (sig := eencode ebase ++ le_bytes 57 ((1 + k) mod q448)) in *.
  assert (V : rfc_valid H (eencode ebase) sig message).
  { exists ebase, ebase. rewrite F1, F2, ES. split; [ split; [ exact ebase_on | reflexivity ] | ]. split; [ split; [ exact ebase_on | reflexivity ] | ].
    split; [ exact F4 | ]. split; [ exact LS | ]. fold k. unfold rfc_equation. rewrite mod_4q_mul by exact ebase_on.
    rewrite <- emul_add by exact ebase_on. f_equal. ring. }
  assert (A1 : ed448_verify H (eencode ebase) sig message = Some (Ok true)).
  { apply (rfc_accepts H X (eencode ebase) sig message ebase F3 V).
    - split; [ exact ebase_on | reflexivity ].
    - exact base_q.
    - intro Z0. rewrite Z0 in F1. apply base_not_zero. symmetry. exact F1.
    - exact base_decodable.
    - rewrite F1. exact base_decodable. }
  exists (eencode ebase), (eencode (eadd ebase point2)), sig. split; [ exact base2_other | ].
  split; [ exists ebase; split; [ split; [ exact ebase_on | reflexivity ] | split; [ exact base_q | exact ebase_nz ] ] | ].
  assert (C2 : on_curve (eadd ebase point2)) by (apply eadd_on; [ exact ebase_on | exact point2_on ]).
  split; [ exists (eadd ebase point2); split; [ exact C2 | reflexivity ] | ]. split; [ exact V | ]. split; [ exact A1 | ].
  rewrite <- A1. symmetry. apply (alias_same H X (eencode ebase) (eencode (eadd ebase point2)) sig message ebase point2).
  - apply eencode_bytes.
  - apply eencode_bytes.
  - exact F3.
  - exact base_not_zero.
  - exact base2_not_zero.
  - exact base_decodable.
  - exact base2_decodable.
  - exact base_denotes.
  - apply denotes_eencode. exact C2.
  - exact point2_on.
  - exact point2_4.
Qed.

Lemma ph_nonce : forall H s s' prefix A A' h, rfc_sign_with H s prefix A h = rfc_ph_sign_with H s' prefix A' h ->
  le_val (H (rfc_dom ++ prefix ++ h) 114%nat) mod q448 = le_val (H (rfc_dom_ph ++ prefix ++ h) 114%nat) mod q448.
Proof.
  intros H s s' prefix A A' h. unfold rfc_sign_with, rfc_ph_sign_with. cbv zeta.
  set (r := le_val (H (rfc_dom ++ prefix ++ h) 114%nat)). set (r' := le_val (H (rfc_dom_ph ++ prefix ++ h) 114%nat)). clearbody r r'.
  set (k := le_val _). set (k' := le_val (H (rfc_dom_ph ++ _) _)). clearbody k k'. intro E. apply (f_equal (firstn 57)) in E.
  pose proof (proj1 (sig_parts (emul r ebase) ((r + k * s) mod q448))) as F. pose proof (proj1 (sig_parts (emul r' ebase) ((r' + k' * s') mod q448))) as F'.
  apply nonce_inj. exact (eq_trans (eq_sym F) (eq_trans E F')).
Qed.
(* Ed448ph: the flag byte of the domain prefix *)
Transparent q448.
Definition hash64 : list Z := repeat 7 64.
Lemma nonces_differ : le_val (shake256 (rfc_dom ++ skipn 57 (shake256 seed 114) ++ hash64) 114) mod q448 <>
  le_val (shake256 (rfc_dom_ph ++ skipn 57 (shake256 seed 114) ++ hash64) 114) mod q448.
Proof. apply Z.eqb_neq. vm_compute. reflexivity. Qed.
Local Opaque shake256 q448.
Theorem prehash_refuted : exists key sk h sig, length h = 64%nat /\ bytes h /\ enc_sign key = false /\ keypair shake256 key sk /\
  sign_prehash shake256 sk h = Some (Ok sig) /\ firstn 114 (as_slice sig) <> rfc_ph_sign shake256 key h.
Proof.
  destruct keypair_case as (sk & K). destruct seed_ok as (L & B & S).
  destruct (sign_prehash_ok shake256 shake256_xof seed sk hash64 K) as (sig & pub & E1 & E2 & L1 & L2 & E3).
  exists seed, sk, hash64, (Signature (sig ++ pub)). split; [ reflexivity | ].
  split; [ unfold hash64, bytes; apply Forall_forall; intros x Hx; apply repeat_spec in Hx; subst x; split; [ apply Z.leb_le | apply Z.ltb_lt ]; reflexivity | ].
  split; [ exact S | ]. split; [ exact K | ]. split; [ exact E3 | ]. unfold as_slice. cbn [sig_bytes].
  rewrite firstn_app, L1, Nat.sub_diag, firstn_O, app_nil_r, firstn_all2 by (rewrite L1; apply Nat.le_refl).
  rewrite (sign_ok shake256 shake256_xof seed hash64 L B), S in E1. apply some_inj in E1. subst sig. intro E.
  unfold rfc_sign, rfc_ph_sign in E. cbv zeta in E. apply ph_nonce in E. exact (nonces_differ E).
Qed.
