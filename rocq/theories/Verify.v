(* eddsa.rs dsa_verify: decoding, absence of panics, error classification, the verification equation. *)
From Coq Require Import ZArith List Bool Lia.
From Verif Require Import SpecField SpecBytes SpecScalar SpecCurve SpecDecode SpecEd448 SpecVerify Base Arith Bytes Constants32 BigNumber ScalarModel
  Niels Errors ExtendedPoint Eddsa Goldilocks.
From Verif Require Import LimbOps2 Field FieldOps ScalarProofs Edwards Isogeny PointOps PointMul CombMul BaseTables Recode DoubleMul Decode Total Ed448.
Import ListNotations.
Open Scope Z_scope.

Definition dpoint (src : list Z) : ept := (droot (mkF (enc_y src)) (enc_sign src), mkF (enc_y src)).
Definition m4 : Z := meff (v32 inv4).

Lemma accepts_decodable : forall src, length src = 57%nat -> (accepts src (fst (dpoint src)) = true <-> decodable src).
Proof.
  intros src L. unfold accepts, decodable, dpoint, fst. set (y := mkF (enc_y src)).
  pose proof (droot_candidate y (enc_sign src)) as C. split.
  - intro H. apply andb_prop in H. destruct H as (H & H4). apply andb_prop in H. destruct H as (H & H3). apply andb_prop in H. destruct H as (H1 & H2).
    split; [ exact L | ]. split; [ exact H1 | ]. split; [ exact H2 | ]. exists (droot y (enc_sign src)). split; [ exact C | ].
    split; [ exact H3 | ]. apply negb_true_iff. exact H4.
  - intros (_ & H1 & H2 & x & Cx & H3 & H4). rewrite <- (candidate_unique _ _ _ _ Cx C). rewrite H1, H2, H3, H4. reflexivity.
Qed.
Lemma denotes_dpoint : forall src P, denotes src P -> P = dpoint src.
Proof.
  intros src (x, y) (H1 & H2 & H3). cbn [fst snd] in *. unfold dpoint. subst y. f_equal.
  apply (candidate_unique (mkF (enc_y src)) (enc_sign src)); [ apply curve_candidate; assumption | apply droot_candidate ].
Qed.
Lemma dpoint_denotes : forall src, on_curve (dpoint src) -> denotes src (dpoint src).
Proof.
  intros src H. unfold denotes. split; [ exact H | ]. split; [ reflexivity | ].
  exact (proj2 (droot_candidate (mkF (enc_y src)) (enc_sign src))).
Qed.
Lemma inv4_red : red inv4 /\ (4 * v32 inv4) mod q448 = 1.
Proof. destruct (quarter_ok _ red_one) as (R & V). split; [ exact R | ]. exact V. Qed.
Lemma m4_cong : (4 * m4) mod q448 = 1.
Proof. rewrite <- (proj2 inv4_red). apply mul_cong_l. apply meff_cong. Qed.

Lemma decode_bad : forall src, length src = 57%nat -> bytes src -> ~ decodable src -> eddsa_like_decode src = Some (Err DecodeError).
Proof.
  intros src L B N. destruct (decode_shape src L B) as (p & _ & E). cbv zeta in E. rewrite E.
  change (droot (mkF (enc_y src)) (enc_sign src)) with (fst (dpoint src)).
  destruct (accepts src (fst (dpoint src))) eqn:A; [ | reflexivity ]. exfalso. apply N. apply accepts_decodable; assumption.
Qed.
Lemma decode_good : forall src, bytes src -> decodable src -> exists p, eddsa_like_decode src = Some (Ok p) /\ tight_point p /\
  (on_curve (dpoint src) -> isP p (emul m4 (dpoint src))).
Proof.
  intros src B D. pose proof (proj1 D) as L. destruct (decode_shape src L B) as (p & R & E). cbv zeta in E.
  change (droot (mkF (enc_y src)) (enc_sign src)) with (fst (dpoint src)) in *.
  rewrite (proj2 (accepts_decodable src L) D) in E.
  destruct (point_scalar_mul_T p inv4 (proj1 R) (proj1 inv4_red)) as (r & E1 & T1). rewrite E1, bind_Some in E.
  exists r. split; [ exact E | ]. split; [ exact T1 | ]. intro HC.
  destruct (point_scalar_mul_ok p inv4 (dpoint src) (raw_point_ok _ _ _ R HC) (proj1 inv4_red)) as (r' & E2 & H2).
  rewrite E1 in E2. injection E2 as <-. exact H2.
Qed.
Lemma decode_length : forall src, length src <> 57%nat -> eddsa_like_decode src = Some (Err InvalidLengthError).
Proof.
  intros src L. unfold eddsa_like_decode. destruct (Z.eqb_spec (Z.of_nat (length src)) 57); [ lia | reflexivity ].
Qed.
Lemma decodable_dec : forall src, {decodable src} + {~ decodable src}.
Proof.
  intro src. destruct (Nat.eq_dec (length src) 57) as [L|L]; [ | right; intros (H & _); exact (L H) ].
  destruct (accepts src (fst (dpoint src))) eqn:A; [ left | right; intro D ].
  - apply accepts_decodable; assumption.
  - apply accepts_decodable in D; [ congruence | exact L ].
Qed.

(* slices *)
Lemma slice_some : forall l a b, (a <= b)%nat -> (b <= length l)%nat -> slice l a b = Some (firstn (b - a) (skipn a l)).
Proof. intros l a b H1 H2. unfold slice. apply Nat.leb_le in H1, H2. rewrite H1, H2. reflexivity. Qed.
Lemma slice_none : forall l a b, (length l < b)%nat -> slice l a b = None.
Proof. intros l a b H. unfold slice. apply Nat.leb_gt in H. rewrite H, andb_false_r. reflexivity. Qed.

Lemma four_red : red scalar_four /\ v32 scalar_four = 4.
Proof. split; [ split; [ split; [ reflexivity | ] | reflexivity ] | reflexivity ]. repeat constructor; unfold r32; lia. Qed.

Section Hash.
Variable xof : list Z -> nat -> list Z.
Hypothesis XOF : is_xof xof.

Definition sig_R (sig : list Z) : list Z := firstn 57 sig.
Definition sig_S (sig : list Z) : list Z := firstn 57 (skipn 57 sig).

(* no panic once both halves of the signature are there *)
Lemma verify_good : forall pub sig message, bytes pub -> bytes sig -> (114 <= length sig)%nat ->
  decodable pub -> decodable (sig_R sig) ->
  exists p r penc r4 pk b,
    eddsa_like_decode pub = Some (Ok p) /\ eddsa_like_decode (sig_R sig) = Some (Ok r) /\
    eddsa_like_encode p = Some penc /\
    tight_point r4 /\ tight_point pk /\
    (on_curve (dpoint (sig_R sig)) -> isP r4 (emul (meff 4) (emul m4 (dpoint (sig_R sig))))) /\
    (on_curve (dpoint pub) -> isP pk (eadd
      (emul ((- rfc_challenge xof (sig_R sig) penc message) mod q448) (emul (meff 4) (emul m4 (dpoint pub))))
      (emul (le_val (sig_S sig) mod q448) ebase))) /\
    mod_equal r4 pk = Some b /\
    compared xof pub sig message r4 pk /\
    dsa_verify xof pub sig message = Some (Ok b).
Proof.
  intros pub sig message B1 B2 L D1 D2.
  assert (BR : bytes (sig_R sig)) by (apply bytes_firstn; exact B2).
  assert (BS : bytes (sig_S sig)) by (apply bytes_firstn; apply bytes_skipn; exact B2).
  destruct (decode_good pub B1 D1) as (p & E1 & T1 & H1). destruct (decode_good _ BR D2) as (r & E2 & T2 & H2).
  destruct (encode_point_T p T1) as (penc & E3 & _).
  destruct (point_scalar_mul_T p scalar_four T1 (proj1 four_red)) as (p2 & E4 & T4).
  destruct (point_scalar_mul_T r scalar_four T2 (proj1 four_red)) as (r4 & E5 & T5).
  set (ch := xof (rfc_dom ++ sig_R sig ++ penc ++ message) 114).
  assert (Bc : bytes ch) by (apply xof_bytes; exact XOF). assert (Lc : length ch = 114%nat) by (apply xof_len; exact XOF).
  destruct (decode_long_ok ch Bc) as (c & E6 & R6 & V6); [ rewrite Lc; reflexivity | ].
  destruct (ssub_ok SCALAR_ZERO c red_zero R6) as (c' & E7 & R7 & V7).
  assert (LS : length (sig_S sig) = 57%nat) by (unfold sig_S; rewrite firstn_length, skipn_length; lia).
  destruct (decode_long_ok (sig_S sig) BS) as (s & E8 & R8 & V8); [ rewrite LS; reflexivity | ].
  assert (Lim : forall u, red u -> v32 u <= 2 ^ 446) by (intros u (_ & U); unfold q448 in U; lia).
  destruct (double_scalamul_T p2 s c' T4 (proj1 R8) (Lim _ R8) (proj1 R7) (Lim _ R7)) as (pk & E9 & T9).
  exists p, r, penc, r4, pk. rewrite (mod_equal_ok r4 pk T5 T9). eexists.
  split; [ exact E1 | ]. split; [ exact E2 | ]. split; [ exact E3 | ]. split; [ exact T5 | ]. split; [ exact T9 | ].
  split; [ | split; [ | split; [ reflexivity | split ] ] ].
  - intro HC. destruct (point_scalar_mul_ok r scalar_four _ (H2 HC) (proj1 four_red)) as (x & Ex & Hx).
    rewrite E5 in Ex. injection Ex as <-. rewrite (proj2 four_red) in Hx. exact Hx.
  - intro HC. destruct (point_scalar_mul_ok p scalar_four _ (H1 HC) (proj1 four_red)) as (x & Ex & Hx).
    rewrite E4 in Ex. injection Ex as <-. rewrite (proj2 four_red) in Hx.
    destruct (double_scalamul_ok p2 s c' _ Hx (proj1 R8) (Lim _ R8) (proj1 R7) (Lim _ R7)) as (x & Ex & Hx2).
    rewrite E9 in Ex. injection Ex as <-. rewrite V7, V8, V6 in Hx2.
    assert (EV : (v32 SCALAR_ZERO - le_val ch mod q448) mod q448 = (- le_val ch) mod q448).
    { change (v32 SCALAR_ZERO) with 0. rewrite Zminus_mod_idemp_r. reflexivity. }
    rewrite EV in Hx2. exact Hx2.
  - exists p, p2, r, penc, c, c', s. repeat apply conj; assumption.
  - unfold dsa_verify. rewrite E1, bind_Some. cbv beta iota. rewrite E4, bind_Some. cbv beta.
    rewrite slice_some by lia. rewrite bind_Some. cbv beta. change (firstn (57 - 0) (skipn 0 sig)) with (sig_R sig).
    rewrite slice_some by lia. rewrite bind_Some. cbv beta. change (firstn (57 + 57 - 57) (skipn 57 sig)) with (sig_S sig).
    rewrite E2, bind_Some. cbv beta iota. rewrite E5, bind_Some. cbv beta. rewrite E3, bind_Some. cbv beta zeta.
    unfold hash_with_dom. change DOM with rfc_dom. fold ch. rewrite E6, bind_Some. cbv beta. rewrite E7, bind_Some. cbv beta.
    rewrite E8, bind_Some. cbv beta. rewrite E9, bind_Some. cbv beta. rewrite (mod_equal_ok r4 pk T5 T9), bind_Some. reflexivity.
Qed.

(* what ed448_verify returns, in order of the tests *)
Inductive verdict : Set := Vzero | Vpublen | Vpub | Vpanic | Vsig | Vbool.
Definition verify_class (pub sig : list Z) : verdict :=
  if bytes_eqb pub zero_public_key || bytes_eqb sig zero_signature then Vzero
  else if negb (length pub =? 57)%nat then Vpublen
  else if decodable_dec pub then
    if (length sig <? 114)%nat then Vpanic
    else if decodable_dec (sig_R sig) then Vbool else Vsig
  else Vpub.
Lemma verify_classes : forall pub sig message, bytes pub -> bytes sig ->
  match verify_class pub sig with
  | Vzero => ed448_verify xof pub sig message = Some (Err InvalidSignatureError)
  | Vpublen => ed448_verify xof pub sig message = Some (Err InvalidPubkeyLengthError)
  | Vpub => ed448_verify xof pub sig message = Some (Err DecodePubkeyError)
  | Vpanic => ed448_verify xof pub sig message = None
  | Vsig => ed448_verify xof pub sig message = Some (Err DecodeSignatureError)
  | Vbool => exists b, ed448_verify xof pub sig message = Some (Ok b)
  end.
Proof.
  intros pub sig message B1 B2. unfold verify_class, ed448_verify.
  destruct (bytes_eqb pub zero_public_key || bytes_eqb sig zero_signature); [ reflexivity | ].
  destruct (Nat.eqb_spec (length pub) 57) as [L|L]; cbn [negb].
  2:{ unfold dsa_verify. rewrite (decode_length pub L), bind_Some. reflexivity. }
  destruct (decodable_dec pub) as [D|D].
  2:{ unfold dsa_verify. rewrite (decode_bad pub L B1 D), bind_Some. reflexivity. }
  destruct (decode_good pub B1 D) as (p & E & T & _).
  destruct (point_scalar_mul_T p scalar_four T (proj1 four_red)) as (p2 & E4 & T4).
  destruct (Nat.ltb_spec (length sig) 114) as [S|S].
  { unfold dsa_verify. rewrite E, bind_Some. cbv beta iota. rewrite E4, bind_Some. cbv beta.
    rewrite (slice_none sig 57 (57 + 57)) by lia. destruct (slice sig 0 57); reflexivity. }
  destruct (decodable_dec (sig_R sig)) as [D2|D2].
  { destruct (verify_good pub sig message B1 B2 S D D2) as (? & ? & ? & ? & ? & b & _ & _ & _ & _ & _ & _ & _ & _ & _ & H). exists b. exact H. }
  unfold dsa_verify. rewrite E, bind_Some. cbv beta iota. rewrite E4, bind_Some. cbv beta.
  rewrite slice_some by lia. rewrite bind_Some. cbv beta. change (firstn (57 - 0) (skipn 0 sig)) with (sig_R sig).
  rewrite slice_some by lia. rewrite bind_Some. cbv beta.
  rewrite (decode_bad (sig_R sig)); [ rewrite bind_Some; reflexivity | | | exact D2 ].
  - unfold sig_R. rewrite firstn_length. lia.
  - apply bytes_firstn. exact B2.
Qed.
End Hash.
