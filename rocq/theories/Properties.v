(* The theorems for the properties of /verif/properties.jsonl, by number.  Nothing is proved here: every
   theorem is closed by a lemma of another file.  xof stands for SHAKE256: theorems hold for every
   function with [is_xof]; SHAKE256 itself is one (xof_instance).  None is a panic (or an arithmetic
   overflow in a debug build).  After each theorem: a case that meets its hypotheses. *)
From Coq Require Import String.
From Coq Require Import ZArith List Bool.
From Verif Require Import SpecField SpecBytes SpecScalar SpecCurve SpecDecode SpecEd448 SpecVerify SpecHex SpecInternal SpecShake SpecTrace SpecUniform SpecApi SpecTraps.
From Verif Require Import Base Constants32 BigNumber ScalarModel Niels CombTable WnafTable Errors ExtendedPoint Eddsa Goldilocks Lib Text Trace.
From Verif Require Shake Ed448 Equation Facts Witness Internal Sound Kernel Alias Api ApiMore TextProofs TraceProofs Uniform Checks Bind Count ConstFacts Interop Blocks Samples Samples2 Claims Queries Samples4 Transcripts Traps SeedWitness ShakeWitness NonceWitness.
Import ListNotations.
Open Scope Z_scope.

Theorem xof_instance : is_xof shake256.
Proof. exact Shake.shake256_xof. Qed.
Print Assumptions xof_instance.

(* C01: public keys of seed keys *)
Theorem C01_public_key : forall xof, is_xof xof -> forall key, length key = 57%nat -> bytes key -> enc_sign key = false ->
  ed448_derive_public xof key = Some (rfc_public xof key).
Proof. exact Claims.public_seed. Qed.
Print Assumptions C01_public_key.
Example C01_case : length Samples.seed = 57%nat /\ bytes Samples.seed /\ enc_sign Samples.seed = false.
Proof. exact Samples.seed_ok. Qed.

(* C02: public keys of expanded keys *)
Theorem C02_public_key_expanded : forall xof, is_xof xof -> forall key, length key = 57%nat -> bytes key -> enc_sign key = true ->
  ed448_derive_public xof key = Some (eencode (emul (secret_scalar key) ebase)).
Proof. exact Claims.public_expanded. Qed.
Print Assumptions C02_public_key_expanded.
Example C02_case : length Samples.key4 = 57%nat /\ bytes Samples.key4 /\ enc_sign Samples.key4 = true /\ secret_scalar Samples.key4 = 4 * q448 + 4.
Proof. exact Samples.key4_ok. Qed.

(* C03: signatures with seed keys *)
Theorem C03_sign : forall xof, is_xof xof -> forall key message, length key = 57%nat -> bytes key -> enc_sign key = false ->
  ed448_sign xof key message = Some (rfc_sign xof key message).
Proof. exact Claims.sign_seed. Qed.
Print Assumptions C03_sign.
Example C03_case : length Samples.seed = 57%nat /\ bytes Samples.seed /\ enc_sign Samples.seed = false.
Proof. exact Samples.seed_ok. Qed.

(* C04: signatures with expanded keys *)
Theorem C04_sign_expanded : forall xof, is_xof xof -> forall key message, length key = 57%nat -> bytes key -> enc_sign key = true ->
  ed448_sign xof key message =
  Some (rfc_sign_with xof (secret_scalar key) (le_bytes 57 (secret_scalar key)) (eencode (emul (secret_scalar key) ebase)) message).
Proof. exact Claims.sign_expanded. Qed.
Print Assumptions C04_sign_expanded.
Example C04_case : length Samples.key4 = 57%nat /\ bytes Samples.key4 /\ enc_sign Samples.key4 = true /\ secret_scalar Samples.key4 = 4 * q448 + 4.
Proof. exact Samples.key4_ok. Qed.

(* C05 is false: for one key no signature is accepted *)
Theorem C05_honest_verifies_refuted : forall xof, is_xof xof -> exists key, length key = 57%nat /\ bytes key /\ forall message, exists pub sig,
  ed448_derive_public xof key = Some pub /\ ed448_sign xof key message = Some sig /\
  ed448_verify xof pub sig message = Some (Err DecodePubkeyError).
Proof. exact Claims.honest_refuted. Qed.
Print Assumptions C05_honest_verifies_refuted.
(* it is no matter of the form of the key: every seed, for a hash changed at this seed only *)
Theorem C05_seed_refuted : forall xof, is_xof xof -> forall key, length key = 57%nat -> bytes key -> enc_sign key = false ->
  exists xof', is_xof xof' /\ (forall x n, x <> key -> xof' x n = xof x n) /\ forall message, exists pub sig,
  ed448_derive_public xof' key = Some pub /\ ed448_sign xof' key message = Some sig /\
  ed448_verify xof' pub sig message = Some (Err DecodePubkeyError).
Proof. exact SeedWitness.seed_refused. Qed.
Print Assumptions C05_seed_refuted.
(* and with SHAKE256 one seed *)
Theorem C05_shake_refuted : let key := [168; 36; 218; 90; 0; 3; 0; 0] ++ repeat 0 49 in length key = 57%nat /\ bytes key /\ enc_sign key = false /\
  forall message, exists pub sig, ed448_derive_public shake256 key = Some pub /\ ed448_sign shake256 key message = Some sig /\
  rfc_valid shake256 pub sig message /\ ed448_verify shake256 pub sig message = Some (Err DecodePubkeyError).
Proof. exact ShakeWitness.shake_refused. Qed.
Print Assumptions C05_shake_refuted.
(* a good key does not help: every key and every message, for a hash changed at one input *)
Theorem C05_nonce_refuted : forall xof, is_xof xof -> forall key message pub, length key = 57%nat -> bytes key ->
  ed448_derive_public xof key = Some pub -> (exists p, eddsa_like_decode pub = Some (Ok p)) ->
  exists xof' input sig, is_xof xof' /\ (forall x n, x <> input -> xof' x n = xof x n) /\ ed448_derive_public xof' key = Some pub /\
  ed448_sign xof' key message = Some sig /\ ed448_verify xof' pub sig message = Some (Err DecodeSignatureError).
Proof. exact NonceWitness.nonce_refused. Qed.
Print Assumptions C05_nonce_refuted.
Example C05_nonce_case : length Samples.key4 = 57%nat /\ bytes Samples.key4 /\
  ed448_derive_public Samples.xof1 Samples.key4 = Some (eencode (emul 4 ebase)) /\ exists p, eddsa_like_decode (eencode (emul 4 ebase)) = Some (Ok p).
Proof. exact NonceWitness.nonce_case. Qed.
Example C05_case : length Samples.seed = 57%nat /\ bytes Samples.seed /\ enc_sign Samples.seed = false.
Proof. exact Samples.seed_ok. Qed.

(* C06: honest signatures are accepted exactly when public key and R are decodable *)
Theorem C06_honest_verifies_iff : forall xof, is_xof xof -> forall key message pub sig, length key = 57%nat -> bytes key ->
  ed448_derive_public xof key = Some pub -> ed448_sign xof key message = Some sig ->
  (ed448_verify xof pub sig message = Some (Ok true) <-> decodable pub /\ decodable (firstn 57 sig)).
Proof. exact Equation.honest_verifies. Qed.
Print Assumptions C06_honest_verifies_iff.
Theorem C06_decodable_point : forall P, on_curve P -> (decodable (eencode P) <-> decoder_tests P).
Proof. exact Equation.decodable_eencode. Qed.
Print Assumptions C06_decodable_point.
Example C06_case : forall message, exists pub sig,
  ed448_derive_public Samples.xof1 Samples.key4 = Some pub /\ ed448_sign Samples.xof1 Samples.key4 message = Some sig /\
  decodable pub /\ decodable (firstn 57 sig) /\ ed448_verify Samples.xof1 pub sig message = Some (Ok true).
Proof. exact Samples.honest4. Qed.
Example C06_xof_case : is_xof Samples.xof1.
Proof. exact Samples.xof1_xof. Qed.

(* C07: the verification equation.  r4 and pk are the points the verifier compares. *)
Theorem C07_verify_exact : forall xof, is_xof xof -> forall pub sig message A R,
  bytes pub -> bytes sig -> (114 <= length sig)%nat -> ~ zero_input pub sig ->
  decodable pub -> decodable (firstn 57 sig) -> denotes pub A -> denotes (firstn 57 sig) R ->
  let k := rfc_challenge xof (firstn 57 sig) (eencode (subgroup_part A)) message in
  let S := le_val (firstn 57 (skipn 57 sig)) in
  exists r4 pk P Q, compared xof pub sig message r4 pk /\
    represents r4 P /\ emul 4 P = emul 4 R /\
    represents pk Q /\ emul 4 Q = eadd (emul (4 * S) ebase) (eneg (emul (4 * k) A)) /\
    (cross r4 pk = fzero <-> rfc_equation S R k A) /\
    ed448_verify xof pub sig message = Some (Ok (low_zero (cross r4 pk))).
Proof. exact Sound.verify_exact. Qed.
Print Assumptions C07_verify_exact.
Theorem C07_verify_accepts : forall xof, is_xof xof -> forall pub sig message A R,
  bytes pub -> bytes sig -> (114 <= length sig)%nat -> ~ zero_input pub sig ->
  decodable pub -> decodable (firstn 57 sig) -> denotes pub A -> denotes (firstn 57 sig) R ->
  rfc_equation (le_val (firstn 57 (skipn 57 sig))) R (rfc_challenge xof (firstn 57 sig) (eencode (subgroup_part A)) message) A ->
  ed448_verify xof pub sig message = Some (Ok true).
Proof. exact Facts.verify_accepts. Qed.
Print Assumptions C07_verify_accepts.
Theorem C07_verify_sound : forall xof, is_xof xof -> forall pub sig message A R, bytes pub -> bytes sig -> ~ zero_input pub sig ->
  denotes pub A -> denotes (firstn 57 sig) R -> ed448_verify xof pub sig message = Some (Ok true) ->
  rfc_equation (le_val (firstn 57 (skipn 57 sig))) R (rfc_challenge xof (firstn 57 sig) (eencode (subgroup_part A)) message) A \/
  exists r4 pk j, compared xof pub sig message r4 pk /\ 0 < j < 2 ^ 28 /\ fval (cross r4 pk) = j * 2 ^ 420.
Proof. exact Sound.verify_true. Qed.
Print Assumptions C07_verify_sound.
Example C07_case : bytes (eencode ebase) /\ bytes Samples.sig2 /\ length Samples.sig2 = 114%nat /\ ~ zero_input (eencode ebase) Samples.sig2 /\
  decodable (eencode ebase) /\ decodable (firstn 57 Samples.sig2) /\ denotes (eencode ebase) ebase /\ denotes (firstn 57 Samples.sig2) ebase /\
  forall message, ed448_verify Samples.xof1 (eencode ebase) Samples.sig2 message = Some (Ok true).
Proof. exact Samples.sig2_case. Qed.

(* C08: no panic *)
Theorem C08_verify_total : forall xof, is_xof xof -> forall pub sig message, bytes pub -> bytes sig -> (114 <= length sig)%nat ->
  (exists r, ed448_verify xof pub sig message = Some r) /\ (exists r, ed448_verify_with_error xof pub sig message = Some r).
Proof. exact Claims.total_both. Qed.
Print Assumptions C08_verify_total.
(* what traps: "None" above means that no operation left its type and no index was out of range *)
Theorem C08_traps : traps_outside chk_u32 0 (2 ^ 32) /\ traps_outside chk_u64 0 (2 ^ 64) /\ traps_outside chk_usize 0 (2 ^ 64) /\
  traps_outside chk_i64 (- 2 ^ 63) (2 ^ 63).
Proof. exact Traps.checked. Qed.
Print Assumptions C08_traps.
Theorem C08_index : forall (A : Type) (l : list A) i,
  (0 <= i < Z.of_nat (length l) -> exists a b x, l = a ++ x :: b /\ Z.of_nat (length a) = i /\ znth l i = Some x /\ forall y, zupd l i y = Some (a ++ y :: b)) /\
  (~ 0 <= i < Z.of_nat (length l) -> znth l i = None /\ forall y, zupd l i y = None).
Proof. exact Traps.index_checked. Qed.
Print Assumptions C08_index.
Theorem C08_slice : forall l a b, ((a <= b <= length l)%nat -> exists u v w, l = u ++ v ++ w /\ length u = a /\ length (u ++ v) = b /\ slice l a b = Some v) /\
  (~ (a <= b <= length l)%nat -> slice l a b = None).
Proof. exact Traps.slice_checked. Qed.
Print Assumptions C08_slice.
Example C08_case : bytes [] /\ bytes Samples.sig2 /\ (114 <= length Samples.sig2)%nat.
Proof. exact Samples.total_case. Qed.

(* C09: errors *)
Theorem C09_verify_errors : forall xof, is_xof xof -> forall pub sig message, bytes pub -> bytes sig ->
  let v := ed448_verify xof pub sig message in
  (v = Some (Err InvalidSignatureError) <-> zero_input pub sig) /\
  (v = Some (Err InvalidPubkeyLengthError) <-> ~ zero_input pub sig /\ length pub <> 57%nat) /\
  (v = Some (Err DecodePubkeyError) <-> ~ zero_input pub sig /\ length pub = 57%nat /\ ~ decodable pub) /\
  (v = None <-> ~ zero_input pub sig /\ decodable pub /\ (length sig < 114)%nat) /\
  (v = Some (Err DecodeSignatureError) <->
     ~ zero_input pub sig /\ decodable pub /\ (114 <= length sig)%nat /\ ~ decodable (firstn 57 sig)) /\
  ((exists b, v = Some (Ok b)) <->
     ~ zero_input pub sig /\ decodable pub /\ (114 <= length sig)%nat /\ decodable (firstn 57 sig)) /\
  (forall e, v = Some (Err e) -> In e [InvalidSignatureError; InvalidPubkeyLengthError; DecodePubkeyError; DecodeSignatureError]).
Proof. exact Facts.verify_errors. Qed.
Print Assumptions C09_verify_errors.
Example C09_case : ~ zero_input (eencode ebase) Samples.sig2 /\ decodable (eencode ebase) /\ decodable (firstn 57 Samples.sig2) /\
  ~ decodable (eencode (emul Witness.bad_scalar ebase)) /\ zero_input (repeat 0 57) Samples.sig2.
Proof. exact Samples.errors_case. Qed.

(* C10 is false: a signature of 113 bytes makes the verifier panic, one of 115 bytes is accepted *)
Theorem C10_signature_length_refuted : forall xof, is_xof xof -> exists pub short long,
  length short = 113%nat /\ length long = 115%nat /\ bytes pub /\ bytes short /\ bytes long /\
  forall message, ed448_verify xof pub short message = None /\ ed448_verify xof pub long message = Some (Ok true).
Proof. exact Claims.length_refuted. Qed.
Print Assumptions C10_signature_length_refuted.
(* what happens: bytes after the first 114 are ignored (but a signature of 114 zero bytes with a tail is
   not taken for the zero signature) *)
Theorem C10_tail_ignored : forall xof pub sig tail message, length sig = 114%nat -> tail <> [] ->
  pub <> repeat 0 57 -> sig <> repeat 0 114 -> ed448_verify xof pub (sig ++ tail) message = ed448_verify xof pub sig message.
Proof. exact Claims.tail_ignored. Qed.
Print Assumptions C10_tail_ignored.
Example C10_case : length Samples.sig2 = 114%nat /\ [0] <> [] :> list Z /\ eencode ebase <> repeat 0 57 /\ Samples.sig2 <> repeat 0 114.
Proof. exact Samples.tail_case. Qed.

(* C11 is false: S + q is accepted as well as S *)
Theorem C11_malleable_refuted : forall xof, is_xof xof -> exists pub sig sig',
  length sig = 114%nat /\ length sig' = 114%nat /\ firstn 57 sig = firstn 57 sig' /\ sig <> sig' /\
  le_val (skipn 57 sig') = le_val (skipn 57 sig) + q448 /\
  forall message, ed448_verify xof pub sig message = Some (Ok true) /\ ed448_verify xof pub sig' message = Some (Ok true).
Proof. exact Claims.malleable_refuted. Qed.
Print Assumptions C11_malleable_refuted.
(* what holds: only S modulo q matters *)
Theorem C11_S_mod_q : forall xof pub sig sig' message, bytes sig -> bytes sig' ->
  (114 <= length sig)%nat -> (114 <= length sig')%nat -> sig <> repeat 0 114 -> sig' <> repeat 0 114 ->
  firstn 57 sig = firstn 57 sig' ->
  le_val (firstn 57 (skipn 57 sig)) mod q448 = le_val (firstn 57 (skipn 57 sig')) mod q448 ->
  ed448_verify xof pub sig message = ed448_verify xof pub sig' message.
Proof. exact Facts.verify_S. Qed.
Print Assumptions C11_S_mod_q.
(* so that every accepted signature comes with at least 1024 accepted variants (itself included) *)
Theorem C11_variants : forall xof pub sig message, length sig = 114%nat -> bytes sig -> firstn 57 sig <> repeat 0 57 ->
  ed448_verify xof pub sig message = Some (Ok true) ->
  1024 <= tally (fun t => match ed448_verify xof pub (firstn 57 sig ++ t) message with Some (Ok b) => b | _ => false end) (strings 57).
Proof. exact Queries.S_variants. Qed.
Print Assumptions C11_variants.
Theorem C11_variant_count : forall s, 0 <= s < q448 ->
  tally (fun t => le_val t mod q448 =? s) (strings 57) = if s <? 1024 * (2 ^ 446 - q448) then 1025 else 1024.
Proof. exact Queries.S_count. Qed.
Print Assumptions C11_variant_count.
Example C11_variants_case : bytes (eencode ebase) /\ bytes Samples.sig2 /\ length Samples.sig2 = 114%nat /\ ~ zero_input (eencode ebase) Samples.sig2 /\
  decodable (eencode ebase) /\ decodable (firstn 57 Samples.sig2) /\ denotes (eencode ebase) ebase /\ denotes (firstn 57 Samples.sig2) ebase /\
  firstn 57 Samples.sig2 <> repeat 0 57 /\ forall message, ed448_verify Samples.xof1 (eencode ebase) Samples.sig2 message = Some (Ok true).
Proof. exact Samples4.linear_case. Qed.
Example C11_case : bytes Witness.forged /\ length Witness.forged = 114%nat /\ Witness.forged <> repeat 0 114 /\
  bytes Witness.forged_q /\ length Witness.forged_q = 114%nat /\ Witness.forged_q <> repeat 0 114 /\
  firstn 57 Witness.forged = firstn 57 Witness.forged_q /\ Witness.forged <> Witness.forged_q.
Proof. exact Samples.malleable_case. Qed.

(* C12: the two verification functions *)
Theorem C12_verify_with_error : forall xof pub sig message,
  ed448_verify_with_error xof pub sig message =
  match ed448_verify xof pub sig message with
  | None => None
  | Some (Ok true) => Some (Ok tt)
  | Some (Ok false) => Some (Err InvalidSignatureError)
  | Some (Err e) => Some (Err e)
  end.
Proof. exact Facts.verify_with_error_ok. Qed.
Print Assumptions C12_verify_with_error.

(* C13 is false *)
Theorem C13_derived_key_decodes_refuted : forall xof, is_xof xof -> exists key pub, length key = 57%nat /\ bytes key /\
  ed448_derive_public xof key = Some pub /\ eddsa_like_decode pub = Some (Err DecodeError).
Proof. exact Claims.undecodable_refuted. Qed.
Print Assumptions C13_derived_key_decodes_refuted.
Theorem C13_seed_refuted : forall xof, is_xof xof -> forall key, length key = 57%nat -> bytes key -> enc_sign key = false ->
  exists xof' pub, is_xof xof' /\ (forall x n, x <> key -> xof' x n = xof x n) /\
  ed448_derive_public xof' key = Some pub /\ eddsa_like_decode pub = Some (Err DecodeError).
Proof. exact SeedWitness.seed_undecodable. Qed.
Print Assumptions C13_seed_refuted.
Theorem C13_shake_refuted : let key := [168; 36; 218; 90; 0; 3; 0; 0] ++ repeat 0 49 in length key = 57%nat /\ bytes key /\ enc_sign key = false /\
  ed448_derive_public shake256 key = Some (rfc_public shake256 key) /\ eddsa_like_decode (rfc_public shake256 key) = Some (Err DecodeError).
Proof. exact ShakeWitness.shake_key_refused. Qed.
Print Assumptions C13_shake_refuted.
(* what holds *)
Theorem C13_derived_key_decodes_iff : forall xof, is_xof xof -> forall key pub, length key = 57%nat -> bytes key ->
  ed448_derive_public xof key = Some pub ->
  ((exists p, eddsa_like_decode pub = Some (Ok p)) <-> decoder_tests (emul (key_scalar xof key) ebase)).
Proof. exact Kernel.derived_decodes_iff. Qed.
Print Assumptions C13_derived_key_decodes_iff.
Example C13_case : decoder_tests (emul 4 ebase) /\ forall xof, is_xof xof -> ed448_derive_public xof Samples.key4 = Some (eencode (emul 4 ebase)).
Proof. exact (conj Samples.four_tests Samples.key4_public). Qed.

(* C14 is false: y and y + p are both accepted, and both signs for x = 0 *)
Theorem C14_one_encoding_refuted : exists a b, a <> b /\ bytes a /\ bytes b /\
  (exists p, eddsa_like_decode a = Some (Ok p)) /\ (exists p, eddsa_like_decode b = Some (Ok p)) /\
  denotes a ezero /\ denotes b ezero /\ p448 <= enc_y b.
Proof. exact Claims.encodings_refuted. Qed.
Print Assumptions C14_one_encoding_refuted.
Theorem C14_sign_bit_refuted : exists a b, a <> b /\ bytes a /\ bytes b /\
  (exists p, eddsa_like_decode a = Some (Ok p)) /\ (exists p, eddsa_like_decode b = Some (Ok p)) /\
  denotes a ezero /\ denotes b ezero /\ enc_y a < p448 /\ enc_y b < p448.
Proof. exact Claims.sign_bit_refuted. Qed.
Print Assumptions C14_sign_bit_refuted.
(* what holds: with y < p and sign 0 for x = 0 there is one encoding *)
Theorem C14_canonical_unique : forall src P, bytes src -> length src = 57%nat -> enc_pad_ok src = true -> denotes src P ->
  enc_y src < p448 -> (fst P = fzero -> enc_sign src = false) -> src = eencode P.
Proof. exact Kernel.canonical_unique. Qed.
Print Assumptions C14_canonical_unique.
Example C14_case : bytes (eencode ebase) /\ length (eencode ebase) = 57%nat /\ enc_pad_ok (eencode ebase) = true /\
  denotes (eencode ebase) ebase /\ enc_y (eencode ebase) < p448 /\ fst ebase <> fzero.
Proof. exact Samples.canonical_case. Qed.

(* C15 is false: a string whose y belongs to no point of the curve is accepted *)
Theorem C15_on_curve_refuted : exists src, bytes src /\ enc_y src < p448 /\ (exists p, eddsa_like_decode src = Some (Ok p)) /\
  forall x, ~ on_curve (x, mkF (enc_y src)).
Proof. exact Claims.off_refuted. Qed.
Print Assumptions C15_on_curve_refuted.

(* C16 is false, for each of the two superfluous tests *)
Theorem C16_range_refuted : exists P, on_curve P /\ range_test (fval (snd P)) = false /\ eddsa_like_decode (eencode P) = Some (Err DecodeError).
Proof. exact Claims.refused_range. Qed.
Print Assumptions C16_range_refuted.
Theorem C16_denominator_refuted : exists P, on_curve P /\ range_test (fval (snd P)) = true /\ eddsa_like_decode (eencode P) = Some (Err DecodeError).
Proof. exact Claims.refused_denominator. Qed.
Print Assumptions C16_denominator_refuted.
(* what holds *)
Theorem C16_point_decodes_iff : forall P, on_curve P -> ((exists p, eddsa_like_decode (eencode P) = Some (Ok p)) <-> decoder_tests P).
Proof. exact Claims.point_decodes_iff. Qed.
Print Assumptions C16_point_decodes_iff.
Example C16_case : on_curve ebase /\ decoder_tests ebase.
Proof. exact Samples.base_case. Qed.

(* C17: what the decoder accepts *)
Theorem C17_decode_iff : forall src, bytes src ->
  (forall p, eddsa_like_decode src = Some (Ok p) -> decodable src) /\
  (decodable src -> exists p, eddsa_like_decode src = Some (Ok p)) /\
  (eddsa_like_decode src = Some (Err DecodeError) <-> length src = 57%nat /\ ~ decodable src) /\
  (eddsa_like_decode src = Some (Err InvalidLengthError) <-> length src <> 57%nat).
Proof. exact Facts.decode_iff. Qed.
Print Assumptions C17_decode_iff.
Theorem C17_residue : forall y s x, candidate y s x -> (residue x y = fzero <-> on_curve (x, y)).
Proof. exact Claims.residue_curve. Qed.
Print Assumptions C17_residue.
Example C17_case : decodable (eencode ebase) /\ ~ decodable (eencode (emul Witness.bad_scalar ebase)).
Proof. exact Samples.decode_case. Qed.

(* C18: two accepted public keys that denote points differing by a point of order 1, 2 or 4 give the same
   answer, on all signatures of all lengths.  (57 zero bytes denote a point of order 4 and are never accepted.) *)
Theorem C18_alias : forall xof, is_xof xof -> forall pub pub' sig message A T,
  bytes pub -> bytes pub' -> bytes sig -> pub <> repeat 0 57 -> pub' <> repeat 0 57 -> decodable pub -> decodable pub' ->
  denotes pub A -> denotes pub' (eadd A T) -> on_curve T -> emul 4 T = ezero ->
  ed448_verify xof pub sig message = ed448_verify xof pub' sig message.
Proof. exact Alias.alias_same. Qed.
Print Assumptions C18_alias.
Example C18_case : decodable (eencode ebase) /\ decodable (eencode (eadd ebase Samples.point2)) /\ denotes (eencode ebase) ebase /\
  denotes (eencode (eadd ebase Samples.point2)) (eadd ebase Samples.point2) /\ on_curve Samples.point2 /\ emul 4 Samples.point2 = ezero /\
  eencode ebase <> eencode (eadd ebase Samples.point2) /\ eencode ebase <> repeat 0 57 /\ eencode (eadd ebase Samples.point2) <> repeat 0 57 /\
  forall message, ed448_verify Samples.xof1 (eencode (eadd ebase Samples.point2)) Samples.sig2 message = Some (Ok true).
Proof. exact Samples.alias_case. Qed.

(* C19 is false: under the neutral element as public key one signature is valid for all messages *)
Theorem C19_identity_key_refuted : forall xof, is_xof xof -> exists sig, length sig = 114%nat /\ bytes sig /\
  forall message, ed448_verify xof (eencode ezero) sig message = Some (Ok true).
Proof. exact Claims.forgery_refuted. Qed.
Print Assumptions C19_identity_key_refuted.

(* C20 is false *)
Theorem C20_identity_public_key_refuted : forall xof, is_xof xof -> exists key, length key = 57%nat /\ bytes key /\
  ed448_derive_public xof key = Some (eencode ezero).
Proof. exact Claims.identity_refuted. Qed.
Print Assumptions C20_identity_public_key_refuted.
(* what holds: exactly for the secret scalar 4 q *)
Theorem C20_identity_iff : forall xof, is_xof xof -> forall key, length key = 57%nat -> bytes key ->
  (ed448_derive_public xof key = Some (eencode ezero) <-> key_scalar xof key = 4 * q448).
Proof. exact Kernel.identity_key_iff. Qed.
Print Assumptions C20_identity_iff.
Example C20_case : length Witness.zero_key = 57%nat /\ bytes Witness.zero_key /\ forall xof, key_scalar xof Witness.zero_key = 4 * q448.
Proof. exact Samples.identity_case. Qed.

(* C21: field operations *)
Theorem C21_field_ops : forall a b, summed a -> summed b ->
  (carried (mul a b) /\ fe (mul a b) = fmul (fe a) (fe b)) /\
  (carried (square a) /\ fe (square a) = fmul (fe a) (fe a)) /\
  (carried (add a b) /\ fe (add a b) = fadd (fe a) (fe b)) /\
  (carried b -> returns_fe (sub a b) (fsub (fe a) (fe b))) /\
  (forall k, 3 <= k <= 4 -> returns_fe (sub_x_bias a b k) (fsub (fe a) (fe b))) /\
  (carried a -> carried b -> summed (add_raw a b) /\ fe (add_raw a b) = fadd (fe a) (fe b)) /\
  (carried a -> returns_fe (neg a) (fopp (fe a))) /\
  (forall w, 0 <= w < 2 ^ 28 -> returns_fe (mul_w a w) (fmul (mkF w) (fe a))) /\
  (forall c, - 2 ^ 28 < c < 0 -> returns_fe (mul_with_signed_curve_constant a c) (fmul (mkF c) (fe a))).
Proof. exact Internal.field_ops. Qed.
Print Assumptions C21_field_ops.
Theorem C21_field_select : forall a b x, limbs_upto (2 ^ 32 - 1) a -> limbs_upto (2 ^ 32 - 1) b ->
  conditional_swap a b (mask32 x) = (if x then (b, a) else (a, b)) /\
  constant_time_select a b (mask32 x) = (if x then a else b) /\
  decaf_const_time_select a b (mask32 x) = (if x then b else a) /\
  (carried a -> returns_fe (conditional_negate a (mask32 x)) (if x then fopp (fe a) else fe a)) /\
  (carried a -> returns_fe (decaf_cond_negate a (mask32 x)) (if x then fopp (fe a) else fe a)).
Proof. exact Internal.field_select. Qed.
Print Assumptions C21_field_select.
Theorem C21_field_reduce : forall a, limbs_upto (2 ^ 32 - 16) a ->
  (carried (weak_reduce a) /\ fe (weak_reduce a) = fe a) /\
  (exists r, strong_reduce a = Some r /\ limbs_upto (2 ^ 28 - 1) r /\ words_val 28 (limbs r) = fval (fe a)) /\
  low_bit a = Some (mask32 (Z.odd (fval (fe a)))) /\
  dsa_like_serialize a = Some (le_bytes 56 (fval (fe a))).
Proof. exact Internal.field_reduce. Qed.
Print Assumptions C21_field_reduce.
Example C21_case : carried Samples.full /\ summed Samples.full /\ limbs_upto (2 ^ 32 - 1) Samples.full /\ limbs_upto (2 ^ 32 - 16) Samples.full /\ fe Samples.full <> fzero.
Proof. exact Samples.full_ok. Qed.

(* C22: inversion and inverse square root *)
Theorem C22_invert : forall a, carried a -> returns_fe (invert a) (finv (fe a)) /\
  (fe a <> fzero -> fmul (fe a) (finv (fe a)) = fone) /\ (fe a = fzero -> finv (fe a) = fzero).
Proof. exact Internal.field_invert. Qed.
Print Assumptions C22_invert.
Theorem C22_isr : forall a, carried a -> exists r, isr a = Some r /\ carried r /\
  (fe a <> fzero -> (exists y, fmul y y = fe a) -> fmul (fmul (fe r) (fe r)) (fe a) = fone) /\
  ((forall y, fmul y y <> fe a) -> fmul (fmul (fe r) (fe r)) (fe a) = fopp fone) /\
  (fe a = fzero -> fe r = fzero).
Proof. exact Internal.field_isr. Qed.
Print Assumptions C22_isr.
Example C22_case : carried Samples.full /\ summed Samples.full /\ limbs_upto (2 ^ 32 - 1) Samples.full /\ limbs_upto (2 ^ 32 - 16) Samples.full /\ fe Samples.full <> fzero.
Proof. exact Samples.full_ok. Qed.

(* C23 is false: the comparison ignores the most significant limb *)
Theorem C23_comparison_refuted : exists a b, carried a /\ carried b /\ fe a <> fe b /\ decaf_equal a b = Some (2 ^ 32 - 1).
Proof. exact Claims.comparison_refuted. Qed.
Print Assumptions C23_comparison_refuted.
(* what holds *)
Theorem C23_comparison : forall a b, summed a -> carried b -> decaf_equal a b = Some (mask32 (low_zero (fsub (fe a) (fe b)))).
Proof. exact Kernel.comparison. Qed.
Print Assumptions C23_comparison.
Theorem C23_equal_found : forall a b, summed a -> carried b -> fe a = fe b -> decaf_equal a b = Some (2 ^ 32 - 1).
Proof. exact Kernel.comparison_equal. Qed.
Print Assumptions C23_equal_found.
Theorem C23_wrong_only : forall a b, summed a -> carried b -> decaf_equal a b = Some (2 ^ 32 - 1) ->
  exists j, 0 <= j < 2 ^ 28 /\ fval (fsub (fe a) (fe b)) = j * 2 ^ 420.
Proof. exact Kernel.comparison_wrong. Qed.
Print Assumptions C23_wrong_only.
(* how many differences other than zero are overlooked, of the p possible ones *)
Theorem C23_overlooked : tally (fun z => (0 <? z) && (z mod 2 ^ 420 =? 0)) (below p448) = 2 ^ 28 - 1.
Proof. exact Transcripts.overlooked. Qed.
Print Assumptions C23_overlooked.
Example C23_case : summed Samples.full /\ carried (weak_reduce Samples.full) /\ fe Samples.full = fe (weak_reduce Samples.full) /\ Samples.full <> weak_reduce Samples.full.
Proof. exact Samples.comparison_case. Qed.

(* C24: scalars from bytes *)
Theorem C24_scalar_decode : forall b, bytes b -> Z.of_nat (length b) < 2 ^ 64 -> returns_sc (decode_long b) (le_val b).
Proof. exact Internal.scalar_decode. Qed.
Print Assumptions C24_scalar_decode.
Example C24_case : bytes Samples.seed /\ Z.of_nat (length Samples.seed) < 2 ^ 64.
Proof. exact Samples.decode_long_case. Qed.

(* C25: scalar arithmetic *)
Theorem C25_scalar_ops : forall a b, reduced a -> reduced b ->
  returns_sc (sadd a b) (sc a + sc b) /\ returns_sc (ssub a b) (sc a - sc b) /\ returns_sc (smul a b) (sc a * sc b) /\
  (reduced (halve a) /\ (2 * sc (halve a)) mod q448 = sc a) /\ encode a = le_bytes 57 (sc a) /\ nth 56 (encode a) 0 = 0.
Proof. exact Internal.scalar_ops. Qed.
Print Assumptions C25_scalar_ops.
Example C25_case : reduced Samples.qm1 /\ sc Samples.qm1 = q448 - 1.
Proof. exact Samples.qm1_ok. Qed.

(* C26: signatures are canonical *)
Theorem C26_sign_canonical : forall xof, is_xof xof -> forall key message sig, length key = 57%nat -> bytes key ->
  ed448_sign xof key message = Some sig ->
  length sig = 114%nat /\ bytes sig /\
  enc_y (firstn 57 sig) < p448 /\ (nth 56 sig 0 = 0 \/ nth 56 sig 0 = 128) /\
  le_val (skipn 57 sig) < q448 /\ nth 113 sig 0 = 0.
Proof. exact Facts.sign_canonical. Qed.
Print Assumptions C26_sign_canonical.
Theorem C26_sign_total : forall xof, is_xof xof -> forall key message, length key = 57%nat -> bytes key ->
  exists sig, ed448_sign xof key message = Some sig.
Proof. exact Facts.sign_total. Qed.
Print Assumptions C26_sign_total.
Example C26_case : length Samples.seed = 57%nat /\ bytes Samples.seed /\ enc_sign Samples.seed = false.
Proof. exact Samples.seed_ok. Qed.

(* C27: fixed-base multiplication *)
Theorem C27_fixed_base : forall s, reduced s -> exists r, precomputed_scalar_mul s = Some r /\ represents r (emul (sc s) ebase).
Proof. exact Internal.fixed_base. Qed.
Print Assumptions C27_fixed_base.
Example C27_case : reduced Samples.qm1 /\ sc Samples.qm1 = q448 - 1.
Proof. exact Samples.qm1_ok. Qed.

(* C28: variable-base and double-base multiplication *)
Theorem C28_variable_base : forall p s Q, represents p Q -> reduced s ->
  exists r, point_scalar_mul p s = Some r /\ represents r (emul (sc s) Q).
Proof. exact Kernel.variable_base_all. Qed.
Print Assumptions C28_variable_base.
Theorem C28_double_base : forall p s t Q, represents p Q -> reduced s -> reduced t -> exists r,
  point_double_scalamul_non_secret p s t = Some r /\ represents r (eadd (emul (sc s) ebase) (emul (sc t) Q)).
Proof. exact Internal.double_base. Qed.
Print Assumptions C28_double_base.
Example C28_case : (exists p, represents p ebase) /\ represents identity_point ezero /\ reduced Samples.qm1.
Proof. exact Samples.multiplication_case. Qed.

(* C29: signed digits *)
Theorem C29_recoding : forall control s tb, 3 <= tb <= 5 -> reduced s ->
  (Z.to_nat (446 / (tb + 1) + 3) <= length control)%nat ->
  exists ds rest r, recode_wnaf control s tb = Some (ds ++ Smvt (-1) 0 :: rest, r) /\
    expansion ds = sc s /\ decreasing (tb + 2) ds /\
    Forall (fun d => Z.odd (addend d) = true /\ - 2 ^ (tb + 1) < addend d < 2 ^ (tb + 1) /\ power d <= 446) ds /\
    match ds with [] => True | d :: _ => 0 < addend d end /\
    r = Z.of_nat (length ds) /\ (length ds < Z.to_nat (446 / (tb + 1) + 3))%nat /\
    length (ds ++ Smvt (-1) 0 :: rest) = length control /\
    skipn (Z.to_nat (446 / (tb + 1) + 3)) (ds ++ Smvt (-1) 0 :: rest) = skipn (Z.to_nat (446 / (tb + 1) + 3)) control.
Proof. exact Internal.recoding. Qed.
Print Assumptions C29_recoding.
(* the helper of the recoding, also for 0 *)
Theorem C29_trailing_zeroes : trailing_zeroes_32 0 = Some 32 /\
  forall n, 0 < n < 2 ^ 32 -> exists t, trailing_zeroes_32 n = Some t /\ 0 <= t < 32 /\ n mod 2 ^ t = 0 /\ n mod 2 ^ (t + 1) <> 0.
Proof. exact Recode.trailing_zeroes. Qed.
Print Assumptions C29_trailing_zeroes.
Example C29_case : reduced Samples.qm1 /\ (Z.to_nat (446 / (5 + 1) + 3) <= length (repeat (Smvt 0 0) 77))%nat /\
  (Z.to_nat (446 / (3 + 1) + 3) <= length (repeat (Smvt 0 0) 115))%nat.
Proof. exact Samples.recoding_case. Qed.

(* C30: point formulas *)
Theorem C30_formulas : forall p Q, represents p Q ->
  (forall before, exists r, double_internal p before = Some r /\ represents_xyz r (eadd Q Q) /\ (before = false -> represents r (eadd Q Q))) /\
  (forall n R before, entry n R ->
     (exists r, add_niels_to_extended p n before = Some r /\ represents_xyz r (eadd Q R) /\ (before = false -> represents r (eadd Q R))) /\
     (exists r, sub_niels_from_extended_point p n before = Some r /\ represents_xyz r (eadd Q (eneg R)) /\ (before = false -> represents r (eadd Q (eneg R))))) /\
  (forall n R before, projective_entry n R ->
     (exists r, add_projected_niels_to_extended p n before = Some r /\ represents_xyz r (eadd Q R) /\ (before = false -> represents r (eadd Q R))) /\
     (exists r, sub_projected_niels_from_extended_point p n before = Some r /\ represents_xyz r (eadd Q (eneg R)) /\ (before = false -> represents r (eadd Q (eneg R))))) /\
  (exists m, to_projected_niels p = Some m /\ projective_entry m Q).
Proof. exact Internal.formulas. Qed.
Print Assumptions C30_formulas.
Theorem C30_doubling : forall p Q before, represents_xyz p Q -> exists r, double_internal p before = Some r /\
  represents_xyz r (eadd Q Q) /\ (before = false -> represents r (eadd Q Q)).
Proof. exact Internal.doubling. Qed.
Print Assumptions C30_doubling.
Theorem C30_table_entries :
  (forall n Q x, entry n Q -> exists r, niels_conditional_negate n (mask32 x) = Some r /\ entry r (if x then eneg Q else Q)) /\
  (forall n Q, entry n Q -> exists r, niels_to_extended n = Some r /\ represents r Q) /\
  (forall n Q, projective_entry n Q -> exists r, pniels_to_extended n = Some r /\ represents r Q) /\
  represents identity_point ezero.
Proof. exact Internal.table_entries. Qed.
Print Assumptions C30_table_entries.
Example C30_case : (exists p, represents p ebase) /\ (exists n, entry n ebase) /\ (exists m, projective_entry m ebase) /\ (exists p, represents_xyz p ebase).
Proof. exact Samples.entries_case. Qed.

(* C31: encoding *)
Theorem C31_encoding : forall p Q, represents_xyz p Q -> eddsa_like_encode p = Some (eencode (emul 4 Q)).
Proof. exact Internal.encoding. Qed.
Print Assumptions C31_encoding.
(* and what a representation says about the point *)
Theorem C31_represents_iff : forall p P Q, represents p P -> (represents p Q <-> on_curve Q /\ emul 4 Q = emul 4 P).
Proof. exact Kernel.represents_iff. Qed.
Print Assumptions C31_represents_iff.
Example C31_case : (exists p, represents p ebase) /\ (exists n, entry n ebase) /\ (exists m, projective_entry m ebase) /\ (exists p, represents_xyz p ebase).
Proof. exact Samples.entries_case. Qed.

(* C32: encoding after decoding *)
Theorem C32_encode_decode : forall P, on_curve P -> emul q448 P = ezero -> decodable (eencode P) ->
  exists p, eddsa_like_decode (eencode P) = Some (Ok p) /\ eddsa_like_encode p = Some (eencode P).
Proof. exact Facts.encode_decode. Qed.
Print Assumptions C32_encode_decode.
(* for any string that denotes a point: the component in the group of B *)
Theorem C32_encode_decode_any : forall src P, bytes src -> decodable src -> denotes src P ->
  exists p, eddsa_like_decode src = Some (Ok p) /\ eddsa_like_encode p = Some (eencode (subgroup_part P)).
Proof. exact Facts.encode_decode_gen. Qed.
Print Assumptions C32_encode_decode_any.
Example C32_case : on_curve ebase /\ emul q448 ebase = ezero /\ decodable (eencode ebase) /\ bytes (eencode ebase) /\ denotes (eencode ebase) ebase.
Proof. exact Samples.encode_case. Qed.

(* C33: clamped bits *)
Theorem C33_clamped_bits : forall xof, is_xof xof -> forall b0 mid b55 b56 b0' b55' b56',
  byte b0 -> byte b0' -> byte b55 -> byte b55' -> bytes mid -> length mid = 54%nat ->
  128 <= b56 < 256 -> 128 <= b56' < 256 ->
  b0 / 4 = b0' / 4 -> b55 mod 128 = b55' mod 128 ->
  let k := b0 :: mid ++ [b55; b56] in
  let k' := b0' :: mid ++ [b55'; b56'] in
  ed448_derive_public xof k = ed448_derive_public xof k' /\
  forall message, ed448_sign xof k message = ed448_sign xof k' message.
Proof. exact Facts.clamped_bits. Qed.
Print Assumptions C33_clamped_bits.
Example C33_case : byte 5 /\ byte 7 /\ byte 129 /\ byte 1 /\ bytes (repeat 9 54) /\ length (repeat 9 54) = 54%nat /\
  128 <= 200 < 256 /\ 128 <= 128 < 256 /\ 5 / 4 = 7 / 4 /\ 129 mod 128 = 1 mod 128.
Proof. exact Samples.clamp_case. Qed.

(* C34: private_to_secret *)
Theorem C34_private_to_secret : forall xof, is_xof xof -> forall k, exists s, private_to_secret xof k = Some s /\
  length s = 57%nat /\ bytes s /\ enc_sign s = true /\ ed448_derive_public xof s = private_to_public xof k.
Proof. exact Facts.private_to_secret_consistent. Qed.
Print Assumptions C34_private_to_secret.
Example C34_case : length Samples.seed = 57%nat /\ bytes Samples.seed /\ enc_sign Samples.seed = false.
Proof. exact Samples.seed_ok. Qed.

(* C35: text of keys *)
Theorem C35_secret_from_str : forall s k, secret_from_str s = Some (SecretKey k) <-> spells s k /\ length k = 57%nat.
Proof. exact Api.secret_from_str_iff. Qed.
Print Assumptions C35_secret_from_str.
Theorem C35_verifying_from_str : forall s k, verifying_from_str s = Some (VerifyingKey k) <-> spells s k /\ length k = 57%nat.
Proof. exact Api.verifying_from_str_iff. Qed.
Print Assumptions C35_verifying_from_str.
Theorem C35_signing_from_str : forall xof, is_xof xof -> forall s,
  (forall sk, signing_from_str xof s = Some sk <-> exists k, spells s k /\ keypair xof k sk) /\
  (signing_from_str xof s = None <-> ~ (length s = 114%nat /\ Forall is_digit s)).
Proof. exact Api.signing_from_str_iff. Qed.
Print Assumptions C35_signing_from_str.
Theorem C35_from_str_panics : forall s, let bad := ~ (length s = 114%nat /\ Forall is_digit s) in
  (secret_from_str s = None <-> bad) /\ (verifying_from_str s = None <-> bad).
Proof. exact Api.from_str_panics. Qed.
Print Assumptions C35_from_str_panics.
Theorem C35_text : forall k, bytes k -> spells (lower_text k) k.
Proof. exact Api.lower_spells. Qed.
Print Assumptions C35_text.
Example C35_case : spells (lower_text Samples.seed) Samples.seed /\ length Samples.seed = 57%nat /\ ~ (length [0x67] = 114%nat /\ Forall is_digit [0x67]).
Proof. exact Samples.text_case. Qed.
Example C35_upper_case : spells [0x41; 0x66; 0x30; 0x39] [0xaf; 0x09].
Proof. exact Samples.upper_case. Qed.

(* C36: serialization *)
Theorem C36_serde_round_trip : forall xof, is_xof xof -> forall k, length k = 57%nat -> bytes k ->
  secret_serialize (Format true) (SecretKey k) = lower_text k /\
  verifying_serialize (Format true) (VerifyingKey k) = lower_text k /\
  secret_deserialize (Format true) (Ok (lower_text k)) = Some (Ok (SecretKey k)) /\
  verifying_deserialize (Format true) (Ok (lower_text k)) = Some (Ok (VerifyingKey k)) /\
  forall sk, keypair xof k sk -> signing_serialize (Format true) sk = lower_text k /\
    signing_deserialize xof (Format true) (Ok (lower_text k)) = Some (Ok sk).
Proof. exact Api.serde_round_trip. Qed.
Print Assumptions C36_serde_round_trip.
Theorem C36_serde_binary : forall xof input,
  secret_deserialize (Format false) input = Some (Err tt) /\ verifying_deserialize (Format false) input = Some (Err tt) /\
  signing_deserialize xof (Format false) input = Some (Err tt).
Proof. exact Api.serde_binary. Qed.
Print Assumptions C36_serde_binary.
Theorem C36_format_error : forall xof e,
  secret_deserialize (Format true) (Err e) = Some (Err e) /\ verifying_deserialize (Format true) (Err e) = Some (Err e) /\
  signing_deserialize xof (Format true) (Err e) = Some (Err e).
Proof. exact Api.serde_error. Qed.
Print Assumptions C36_format_error.
Example C36_case : exists sk, keypair shake256 Samples.seed sk.
Proof. exact Samples.keypair_case. Qed.

(* C37 is false *)
Theorem C37_deserialize_panics_refuted : forall xof,
  secret_deserialize (Format true) (Ok [0x67]) = None /\ verifying_deserialize (Format true) (Ok []) = None /\
  signing_deserialize xof (Format true) (Ok []) = None.
Proof. exact Witness.deserialize_panics. Qed.
Print Assumptions C37_deserialize_panics_refuted.
(* what holds *)
Theorem C37_deserialize_panic_iff : forall xof, is_xof xof -> forall s, let bad := ~ (length s = 114%nat /\ Forall is_digit s) in
  (secret_deserialize (Format true) (Ok s) = None <-> bad) /\ (verifying_deserialize (Format true) (Ok s) = None <-> bad) /\
  (signing_deserialize xof (Format true) (Ok s) = None <-> bad).
Proof. exact Api.deserialize_panic_iff. Qed.
Print Assumptions C37_deserialize_panic_iff.
Example C37_case : length (lower_text Samples.seed) = 114%nat /\ Forall is_digit (lower_text Samples.seed).
Proof. exact Samples.digits_case. Qed.

(* C38: constructors *)
Theorem C38_constructors : forall xof, is_xof xof -> forall k, length k = 57%nat -> bytes k ->
  exists sk, keypair xof k sk /\ signing_from_slice xof k = Some sk /\ signing_from_bytes xof k = Some (Ok sk) /\
    signing_from_secret xof (SecretKey k) = Some sk /\ signing_random xof k = Some sk /\
    forall s, spells s k -> signing_from_str xof s = Some sk.
Proof. exact Api.signing_from_slice_ok. Qed.
Print Assumptions C38_constructors.
Theorem C38_bad_length : forall xof k, length k <> 57%nat ->
  signing_from_bytes xof k = Some (Err (InvalidPrivKeyLengthErrro (Z.of_nat (length k)))) /\ signing_from_slice xof k = None.
Proof. exact Api.signing_bad_length. Qed.
Print Assumptions C38_bad_length.
Theorem C38_from_bytes : forall k k',
  (secret_from_bytes k = Some (SecretKey k') <-> k' = k /\ length k = 57%nat) /\
  (verifying_from_bytes k = Some (VerifyingKey k') <-> k' = k /\ length k = 57%nat) /\
  (secret_from_bytes k = None <-> length k <> 57%nat) /\ (verifying_from_bytes k = None <-> length k <> 57%nat).
Proof. exact Api.from_bytes_iff. Qed.
Print Assumptions C38_from_bytes.
Example C38_case : length Samples.seed = 57%nat /\ bytes Samples.seed /\ spells (lower_text Samples.seed) Samples.seed /\ length [1; 2; 3] <> 57%nat.
Proof. exact Samples.constructor_case. Qed.

(* C39: sign_prehash *)
Theorem C39_sign_prehash : forall xof, is_xof xof -> forall k sk message, keypair xof k sk -> exists sig pub,
  ed448_sign xof k message = Some sig /\ ed448_derive_public xof k = Some pub /\ length sig = 114%nat /\ length pub = 57%nat /\
  sign_prehash xof sk message = Some (Ok (Signature (sig ++ pub))).
Proof. exact Api.sign_prehash_ok. Qed.
Print Assumptions C39_sign_prehash.
Theorem C39_sign_prehash_verifies : forall xof, is_xof xof -> forall k sk message, keypair xof k sk -> exists out,
  sign_prehash xof sk message = Some (Ok (Signature out)) /\ length out = 171%nat /\
  (ed448_verify xof (skipn 114 out) (firstn 114 out) message = Some (Ok true) <->
   decodable (skipn 114 out) /\ decodable (firstn 57 out)).
Proof. exact Api.sign_prehash_verifies. Qed.
Print Assumptions C39_sign_prehash_verifies.
Example C39_case : exists sk, keypair shake256 Samples.seed sk.
Proof. exact Samples.keypair_case. Qed.

(* C40: nonces *)
Theorem C40_nonces : forall xof, is_xof xof -> forall key m m' sig sig', length key = 57%nat -> bytes key ->
  ed448_sign xof key m = Some sig -> ed448_sign xof key m' = Some sig' ->
  let prefix := if enc_sign key then le_bytes 57 (secret_scalar key) else skipn 57 (xof key 114%nat) in
  let nonce := fun x => le_val (xof (rfc_dom ++ prefix ++ x) 114%nat) mod q448 in
  (firstn 57 sig = firstn 57 sig' <-> nonce m = nonce m').
Proof. exact Claims.nonces. Qed.
Print Assumptions C40_nonces.
Example C40_case : forall m m', exists sig sig', ed448_sign shake256 Samples.seed m = Some sig /\ ed448_sign shake256 Samples.seed m' = Some sig'.
Proof. exact Samples.nonce_case. Qed.
