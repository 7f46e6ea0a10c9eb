(* lib.rs: accessors, validation of keys, errors that can be returned; small constructors. *)
From Coq Require Import String.
From Coq Require Import ZArith List Bool Lia.
From Verif Require Import SpecField SpecBytes SpecScalar SpecCurve SpecDecode SpecEd448 SpecVerify SpecHex SpecApi SpecInternal.
From Verif Require Import Base Arith Bytes Constants32 BigNumber ScalarModel Niels ExtendedPoint Errors Eddsa Goldilocks Lib Text.
From Verif Require Import Decode Ed448 Verify Equation Facts Witness Api Samples Samples2 Field TextProofs.
Import ListNotations.
Open Scope Z_scope.

Lemma bytes_repeat : forall b n, 0 <= b < 256 -> bytes (repeat b n).
Proof. intros b n H. apply Forall_forall. intros x I. apply repeat_spec in I. subst x. exact H. Qed.
(* 57 bytes 1, a key of the tests in lib.rs: the last byte is neither 0 nor 128 *)
Lemma ones_undecodable : ~ decodable (repeat 1 57).
Proof. intros (_ & P & _). vm_compute in P. discriminate P. Qed.

Section Hash.
Variable xof : list Z -> nat -> list Z.
Hypothesis XOF : is_xof xof.

Theorem keypair_eq : forall k k' sk sk', keypair xof k sk -> keypair xof k' sk' -> (sk = sk' <-> k = k').
Proof.
  intros k k' sk sk' K K'. split.
  - intros <-. destruct K as (_ & _ & T & _). destruct K' as (_ & _ & T' & _). congruence.
  - intros <-. exact (keypair_fun xof k sk sk' K K').
Qed.
Theorem accessors : forall k sk, keypair xof k sk ->
  signing_from_secret xof (get_secret_key sk) = Some sk /\ signing_from_slice xof (to_bytes sk) = Some sk /\
  signing_from_bytes xof (to_bytes sk) = Some (Ok sk) /\
  secret_from_bytes (to_bytes sk) = Some (get_secret_key sk) /\
  length (as_bytes (get_verifying_key sk)) = 57%nat /\ bytes (as_bytes (get_verifying_key sk)) /\
  verifying_from_bytes (as_bytes (get_verifying_key sk)) = Some (get_verifying_key sk).
Proof.
  intros k sk K. pose proof K as (L & B & T & S & V). destruct (signing_from_slice_ok xof XOF k L B) as (sk' & K' & E1 & E2 & E3 & _ & _).
  rewrite (keypair_fun xof k sk' sk K' K) in *. destruct sk as [[a] [b]]. unfold to_bytes, get_secret_key, get_verifying_key, as_bytes in *.
  cbn [sg_secret sk_key sg_verifying vk_key] in *. clear S. subst a.
  destruct (derive_some xof XOF k L B) as (pub & D & LP & BP). rewrite D in V. injection V as V.
  split; [ exact E3 | ]. split; [ exact E1 | ]. split; [ exact E2 | ].
  split; [ unfold secret_from_bytes, to_array57; rewrite L; reflexivity | ].
  rewrite V. split; [ exact LP | ]. split; [ exact BP | ]. unfold verifying_from_bytes, to_array57. rewrite LP. reflexivity.
Qed.
Theorem signature_layout : forall k sk message, keypair xof k sk -> bytes message -> exists s,
  sign_prehash xof sk message = Some (Ok s) /\ length (as_slice s) = 171%nat /\ bytes (as_slice s) /\
  ed448_sign xof k message = Some (firstn 114 (as_slice s)) /\ skipn 114 (as_slice s) = as_bytes (get_verifying_key sk).
Proof.
  intros k sk message K BM. destruct (sign_prehash_ok xof XOF k sk message K) as (sig & pub & E1 & E2 & L1 & L2 & E3).
  exists (Signature (sig ++ pub)). cbn [as_slice sig_bytes]. unfold as_slice. cbn [sig_bytes]. destruct K as (L & B & T & S & V).
  rewrite E2 in V. injection V as V.
  split; [ exact E3 | ]. split; [ rewrite app_length, L1, L2; reflexivity | ].
  split; [ apply bytes_app; split; [ | ] | ].
  - destruct (sign_canonical xof XOF k message sig L B E1) as (_ & BS & _). exact BS.
  - destruct (derive_some xof XOF k L B) as (p & D & _ & BP). rewrite E2 in D. injection D as D. rewrite D. exact BP.
  - rewrite firstn_app, skipn_app, L1, Nat.sub_diag, firstn_O, app_nil_r, skipn_O, firstn_all2, skipn_all2 by lia. split; [ exact E1 | ].
    cbn [app]. symmetry. exact V.
Qed.

(* errors *)
Theorem errors_returned : forall e, api_error xof e <->
  match e with
  | InvalidSignatureError | InvalidPubkeyLengthError | DecodePubkeyError | DecodeSignatureError => True
  | InvalidPrivKeyLengthErrro n => 0 <= n /\ n <> 57
  | DecodeError | InvalidLengthError | InvalidSignatureLengthError => False
  end.
Proof.
  assert (V : forall pub sig message e, bytes pub -> bytes sig -> ed448_verify xof pub sig message = Some (Err e) ->
    In e [InvalidSignatureError; InvalidPubkeyLengthError; DecodePubkeyError; DecodeSignatureError]).
  { intros pub sig message e Bp Bs E. exact (proj2 (proj2 (proj2 (proj2 (proj2 (proj2 (verify_errors xof XOF pub sig message Bp Bs)))))) e E). }
  assert (W : forall e, In e [InvalidSignatureError; InvalidPubkeyLengthError; DecodePubkeyError; DecodeSignatureError] ->
    match e with
    | InvalidSignatureError | InvalidPubkeyLengthError | DecodePubkeyError | DecodeSignatureError => True
    | InvalidPrivKeyLengthErrro n => 0 <= n /\ n <> 57
    | DecodeError | InvalidLengthError | InvalidSignatureLengthError => False
    end).
  { intros e [ <- | [ <- | [ <- | [ <- | [] ] ] ] ]; exact I. }
  intro e. split.
  - intros [ (pub & sig & m & Bp & Bs & _ & E) | [ (pub & sig & m & Bp & Bs & _ & E) | [ (k & B & E) | (k & sk & m & K & _ & E) ] ] ].
    + apply W. exact (V pub sig m e Bp Bs E).
    + rewrite verify_with_error_ok in E. destruct (ed448_verify xof pub sig m) as [ [ [ | ] | e' ] | ] eqn:E'; try discriminate E.
      * injection E as <-. exact I.
      * injection E as <-. apply W. exact (V pub sig m e' Bp Bs E').
    + destruct (Nat.eq_dec (length k) 57) as [ L | L ].
      * destruct (signing_from_slice_ok xof XOF k L B) as (sk & _ & _ & E' & _). rewrite E' in E. discriminate E.
      * rewrite (proj1 (signing_bad_length xof k L)) in E. injection E as <-. lia.
    + destruct (sign_prehash_ok xof XOF k sk m K) as (sig & pub & _ & _ & _ & _ & E'). rewrite E' in E. discriminate E.
  - assert (N : forall e, (exists pub sig, bytes pub /\ bytes sig /\ ed448_verify xof pub sig [] = Some (Err e)) -> api_error xof e).
    { intros e' (pub & sig & Bp & Bs & E). left. exists pub, sig, []. split; [ exact Bp | ]. split; [ exact Bs | ]. split; [ constructor | exact E ]. }
    pose proof (eencode_bytes ebase) as Bb. destruct sig2_ok as (B2 & L2 & _).
    destruct e; intro H; try contradiction H.
    + apply N. exists (repeat 1 57), sig2. split; [ apply bytes_repeat; lia | ]. split; [ exact B2 | ].
      apply (verify_errors xof XOF); [ apply bytes_repeat; lia | exact B2 | ]. split; [ | split; [ reflexivity | exact ones_undecodable ] ].
      intros [ Z | Z ]; [ discriminate Z | exact (sig2_nz Z) ].
    + apply N. exists (eencode ebase), (repeat 1 114). split; [ exact Bb | ]. split; [ apply bytes_repeat; lia | ].
      apply (verify_errors xof XOF); [ exact Bb | apply bytes_repeat; lia | ]. split; [ | split; [ exact base_decodable | split ] ].
      * intros [ Z | Z ]; [ exact (base_not_zero Z) | discriminate Z ].
      * rewrite repeat_length. apply Nat.le_refl.
      * exact ones_undecodable.
    + right. right. left. exists (repeat 0 (Z.to_nat len)). split; [ apply bytes_repeat; lia | ].
      rewrite (proj1 (signing_bad_length xof (repeat 0 (Z.to_nat len)) ltac:(rewrite repeat_length; lia))), repeat_length, Z2Nat.id by lia. reflexivity.
    + apply N. exists [], sig2. split; [ constructor | ]. split; [ exact B2 | ]. apply (verify_errors xof XOF); [ constructor | exact B2 | ].
      split; [ intros [ Z | Z ]; [ discriminate Z | exact (sig2_nz Z) ] | discriminate ].
    + apply N. exists (repeat 0 57), sig2. split; [ apply bytes_repeat; lia | ]. split; [ exact B2 | ]. apply (verify_errors xof XOF); [ apply bytes_repeat; lia | exact B2 | ].
      left. reflexivity.
Qed.
End Hash.

(* no validation of public keys *)
Theorem key_not_validated : exists k v, length k = 57%nat /\ bytes k /\ verifying_from_bytes k = Some v /\ verifying_from_str (lower_text k) = Some v /\
  ~ decodable k /\ forall xof, is_xof xof -> forall sig message, bytes sig -> sig <> repeat 0 114 ->
  ed448_verify xof (as_bytes v) sig message = Some (Err DecodePubkeyError).
Proof.
  exists (repeat 1 57), (VerifyingKey (repeat 1 57)). assert (B : bytes (repeat 1 57)) by (apply bytes_repeat; lia).
  split; [ reflexivity | ]. split; [ exact B | ]. split; [ reflexivity | ].
  split; [ apply verifying_from_str_iff; split; [ apply lower_spells; exact B | reflexivity ] | ]. split; [ exact ones_undecodable | ].
  intros xof X sig message BS NZ. unfold as_bytes. cbn [vk_key]. apply (verify_errors xof X); [ exact B | exact BS | ].
  split; [ intros [ Z | Z ]; [ discriminate Z | exact (NZ Z) ] | ]. split; [ reflexivity | exact ones_undecodable ].
Qed.

(* small constructors *)
Theorem scalar_constructors :
  (forall a, words32 a -> copy a = a) /\
  (forall w, 0 <= w < 2 ^ 32 -> words32 (ScalarModel.set w) /\ sc (ScalarModel.set w) = w) /\
  words32 create_zero_scalar /\ sc create_zero_scalar = 0.
Proof.
  assert (Z14 : words32 create_zero_scalar) by (split; [ reflexivity | apply Forall_forall; intros x I; apply (repeat_spec 14 0) in I; subst x; lia ]).
  split; [ | split; [ | split; [ exact Z14 | reflexivity ] ] ].
  - intros a (L & _). unfold copy. rewrite firstn_all2 by (rewrite L; apply Nat.le_refl). apply app_nil_r.
  - intros w H. destruct Z14 as (_ & F). split; [ split; [ reflexivity | ] | ].
    + unfold ScalarModel.set. apply Forall_cons; [ exact H | ]. inversion F; assumption.
    + unfold sc, ScalarModel.set. cbn [words_val tl create_zero_scalar]. unfold create_zero_scalar. vm_compute words_val. lia.
Qed.
Theorem point_constructors : Forall (fun a => carried a /\ fe a = fzero)
  [na niels_new; nb niels_new; nc niels_new; na (pn pniels_new); nb (pn pniels_new); nc (pn pniels_new); pnz pniels_new;
   px point_new; py point_new; pz point_new; ExtendedPoint.pt point_new].
Proof.
  assert (Z : carried create_zero_bignumber /\ fe create_zero_bignumber = fzero).
  { split; [ | apply F_eq; vm_compute; reflexivity ]. apply Forall_forall. intros x I. apply (repeat_spec 16 0) in I. subst x. lia. }
  repeat (apply Forall_cons; [ exact Z | ]). apply Forall_nil.
Qed.
Theorem errors_unused : forall xof, is_xof xof -> ~ api_error xof DecodeError /\ ~ api_error xof InvalidLengthError /\ ~ api_error xof InvalidSignatureLengthError.
Proof. intros xof X. split; [ | split ]; intro H; exact (proj1 (errors_returned xof X _) H). Qed.

(* cases *)
Lemma errors_case : is_xof xof1 /\ exists e, api_error xof1 e.
Proof. split; [ exact xof1_xof | ]. exists InvalidSignatureError. apply errors_returned; [ exact xof1_xof | exact I ]. Qed.
Lemma debug_case : secret_debug (SecretKey [1; 20; 255]) = codes "SecretKey { key: [1, 20, 255] }" /\ bytes [1; 20; 255] /\
  secret_debug (SecretKey seed) <> secret_debug (SecretKey (repeat 0 57)).
Proof.
  split; [ vm_compute; reflexivity | ]. split; [ repeat (apply Forall_cons; [ split; [ discriminate | reflexivity ] | ]); apply Forall_nil | ].
  intro E. apply secret_debug_reveals in E; [ vm_compute in E; discriminate E | exact (proj1 (proj2 seed_ok)) | apply bytes_repeat; lia ].
Qed.
Lemma words_case : words32 qm1.
Proof. exact (proj1 (proj1 (proj2 Samples2.scalar_case))). Qed.
