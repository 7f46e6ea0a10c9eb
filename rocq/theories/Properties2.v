(* The theorems for the properties of /verif/properties.jsonl from C41 on.  Nothing is proved here: every
   theorem is closed by a lemma of another file.  xof stands for SHAKE256: theorems hold for every
   function with [is_xof]; SHAKE256 itself is one (xof_instance).  None is a panic (or an arithmetic
   overflow in a debug build).  After each theorem: a case that meets its hypotheses. *)
From Coq Require Import String.
From Coq Require Import ZArith List Bool.
From Verif Require Import SpecField SpecBytes SpecScalar SpecCurve SpecDecode SpecEd448 SpecVerify SpecHex SpecInternal SpecShake SpecTrace SpecEvents SpecUniform SpecApi SpecProtocol.
From Verif Require Import Base Constants32 BigNumber ScalarModel Niels CombTable WnafTable Errors ExtendedPoint Eddsa Goldilocks Lib Text Trace.
From Verif Require Shake Ed448 Equation Facts Witness Internal Sound Kernel Alias Api ApiMore TextProofs TraceProofs TraceWhole Uniform Checks Bind Count ConstFacts Interop Blocks Samples Samples2 Claims Protocol Panics Samples3 Queries Samples4 Transcripts.
Import ListNotations.
Open Scope Z_scope.

(* C41: what signing shows to an observer of branches and memory addresses *)
Theorem C41_secret_dependent_refuted : forall xof, is_xof xof -> exists key key', length key = 57%nat /\ bytes key /\ length key' = 57%nat /\ bytes key' /\
  enc_sign key = enc_sign key' /\ forall message, exists t sig t' sig',
  t_ed448_sign xof key message = Some (t, sig) /\ t_ed448_sign xof key' message = Some (t', sig') /\ t <> t'.
Proof. exact TraceProofs.leak_refuted. Qed.
Print Assumptions C41_secret_dependent_refuted.
Theorem C41_trace_of_signing : forall xof key message, option_map snd (t_ed448_sign xof key message) = ed448_sign xof key message.
Proof. exact TraceProofs.sign_erase. Qed.
Print Assumptions C41_trace_of_signing.
Theorem C41_trace_of_derivation : forall xof key, option_map snd (t_ed448_derive_public xof key) = ed448_derive_public xof key.
Proof. exact TraceProofs.derive_erase. Qed.
Print Assumptions C41_trace_of_derivation.
Theorem C41_lookups : forall xof, is_xof xof -> forall key message, length key = 57%nat -> bytes key ->
  exists t sig, t_ed448_sign xof key message = Some (t, sig) /\ ed448_sign xof key message = Some sig /\
  lookups t = table_addresses (key_scalar xof key) ++ table_addresses (key_nonce xof key message).
Proof. exact TraceProofs.sign_lookups. Qed.
Print Assumptions C41_lookups.
Theorem C41_lookups_of_derivation : forall xof, is_xof xof -> forall key, length key = 57%nat -> bytes key ->
  exists t pub, t_ed448_derive_public xof key = Some (t, pub) /\ ed448_derive_public xof key = Some pub /\ lookups t = table_addresses (key_scalar xof key).
Proof. exact TraceProofs.derive_lookups. Qed.
Print Assumptions C41_lookups_of_derivation.
Theorem C41_only_lookups : forall xof, is_xof xof -> forall k k' m m' t t' sig sig', length k = 57%nat -> bytes k -> length k' = 57%nat -> bytes k' ->
  enc_sign k = enc_sign k' -> length m = length m' ->
  t_ed448_sign xof k m = Some (t, sig) -> t_ed448_sign xof k' m' = Some (t', sig') -> lookups t = lookups t' -> t = t'.
Proof. exact TraceProofs.sign_only_lookups. Qed.
Print Assumptions C41_only_lookups.
Theorem C41_only_lookups_of_derivation : forall xof, is_xof xof -> forall k k' t t' pub pub', length k = 57%nat -> bytes k -> length k' = 57%nat -> bytes k' ->
  enc_sign k = enc_sign k' ->
  t_ed448_derive_public xof k = Some (t, pub) -> t_ed448_derive_public xof k' = Some (t', pub') -> lookups t = lookups t' -> t = t'.
Proof. exact TraceProofs.derive_only_lookups. Qed.
Print Assumptions C41_only_lookups_of_derivation.
(* the whole trace, as a list: SpecEvents.v *)
Theorem C41_whole_trace_of_signing : forall xof, is_xof xof -> forall key message, length key = 57%nat -> bytes key -> exists sig, ed448_sign xof key message = Some sig /\
  t_ed448_sign xof key message = Some (sign_events (negb (enc_sign key)) (key_scalar xof key) (key_nonce xof key message) (length message), sig).
Proof. exact TraceWhole.sign_whole. Qed.
Print Assumptions C41_whole_trace_of_signing.
Theorem C41_whole_trace_of_derivation : forall xof, is_xof xof -> forall key, length key = 57%nat -> bytes key -> exists pub, ed448_derive_public xof key = Some pub /\
  t_ed448_derive_public xof key = Some (derive_events (negb (enc_sign key)) (key_scalar xof key), pub).
Proof. exact TraceWhole.derive_whole. Qed.
Print Assumptions C41_whole_trace_of_derivation.
Theorem C41_address_reveals : forall N N' i j, comb_address N i j = comb_address N' i j <->
  comb_digit N i j = comb_digit N' i j \/ comb_digit N i j + comb_digit N' i j = 31.
Proof. exact TraceProofs.address_reveals. Qed.
Print Assumptions C41_address_reveals.
Example C41_case : length TraceProofs.leak1 = 57%nat /\ bytes TraceProofs.leak1 /\ length TraceProofs.leak2 = 57%nat /\ bytes TraceProofs.leak2 /\
  enc_sign TraceProofs.leak1 = true /\ enc_sign TraceProofs.leak2 = true.
Proof. exact TraceProofs.leak_ok. Qed.
Example C41_case_addresses : comb_address (comb_number (secret_scalar TraceProofs.leak1)) 17 0 = 11 /\
  comb_address (comb_number (secret_scalar TraceProofs.leak2)) 17 0 = 9.
Proof. exact TraceProofs.leak_first. Qed.

(* C42: generated keys, counted over all outputs of the generator *)
Theorem C42_uniform : forall xof, is_xof xof -> tally (fun _ => true) (strings 57) = 256 ^ 57 /\
  (forall s, In s (strings 57) <-> length s = 57%nat /\ bytes s) /\
  forall k, length k = 57%nat -> bytes k ->
  tally (fun rng => same_string (ed448_generate_key rng) k) (strings 57) = 1 /\
  tally (fun rng => match signing_random xof rng with Some sk => same_string (to_bytes sk) k | None => false end) (strings 57) = 1.
Proof. exact Uniform.uniform. Qed.
Print Assumptions C42_uniform.
Theorem C42_generate : forall xof, is_xof xof -> forall rng, length rng = 57%nat -> bytes rng ->
  ed448_generate_key rng = rng /\ exists sk, signing_random xof rng = Some sk /\ to_bytes sk = rng.
Proof. exact Api.generate. Qed.
Print Assumptions C42_generate.
Example C42_case : length Samples.seed = 57%nat /\ bytes Samples.seed /\ enc_sign Samples.seed = false.
Proof. exact Samples.seed_ok. Qed.

(* C43: agreement with RFC 8032 verification for public keys in the group of B *)
Theorem C43_rfc_accepts : forall xof, is_xof xof -> forall pub sig message A, bytes sig -> rfc_valid xof pub sig message ->
  rfc_decodes pub A -> emul q448 A = ezero -> sig <> repeat 0 114 -> decodable pub -> decodable (firstn 57 sig) ->
  ed448_verify xof pub sig message = Some (Ok true).
Proof. exact Sound.rfc_accepts. Qed.
Print Assumptions C43_rfc_accepts.
Theorem C43_accepts_rfc : forall xof, is_xof xof -> forall pub sig message A R, bytes sig -> length sig = 114%nat ->
  rfc_decodes pub A -> emul q448 A = ezero -> rfc_decodes (firstn 57 sig) R -> le_val (skipn 57 sig) < q448 ->
  ed448_verify xof pub sig message = Some (Ok true) ->
  rfc_valid xof pub sig message \/
  exists r4 pk j, compared xof pub sig message r4 pk /\ 0 < j < 2 ^ 28 /\ fval (cross r4 pk) = j * 2 ^ 420.
Proof. exact Sound.accepts_rfc. Qed.
Print Assumptions C43_accepts_rfc.
Example C43_case : forall message, bytes Samples.sig2 /\ rfc_valid Samples.xof1 (eencode ebase) Samples.sig2 message /\ rfc_decodes (eencode ebase) ebase /\
  emul q448 ebase = ezero /\ Samples.sig2 <> repeat 0 114 /\ decodable (eencode ebase) /\ decodable (firstn 57 Samples.sig2) /\
  rfc_decodes (firstn 57 Samples.sig2) ebase /\ le_val (skipn 57 Samples.sig2) < q448.
Proof. exact Samples.rfc_case. Qed.

(* C44: text of message hashes and signatures *)
Theorem C44_hex_helpers : forall s,
  (forall b, hex_to_message_hash s = Some b <-> spells s b /\ length b = 32%nat) /\
  (forall b, hex_to_signature s = Some b <-> spells s b /\ length b = 114%nat) /\
  (hex_to_message_hash s = None <-> ~ (length s = 64%nat /\ Forall is_digit s)) /\
  (hex_to_signature s = None <-> ~ (length s = 228%nat /\ Forall is_digit s)).
Proof. exact Api.hex_helpers. Qed.
Print Assumptions C44_hex_helpers.
Example C44_case : spells (lower_text (repeat 171 32)) (repeat 171 32) /\ length (repeat 171 32) = 32%nat.
Proof. exact Samples.hex_case. Qed.

(* C45: generated keys as RFC 8032 keys *)
Theorem C45_generated_rfc_refuted : exists rng, In rng (strings 57) /\ ed448_derive_public shake256 (ed448_generate_key rng) <> Some (rfc_public shake256 rng).
Proof. exact Uniform.generated_refuted. Qed.
Print Assumptions C45_generated_rfc_refuted.
Theorem C45_condition : forall xof, is_xof xof -> forall key, length key = 57%nat -> bytes key ->
  (ed448_derive_public xof key = Some (rfc_public xof key) <-> enc_sign key = false \/ secret_scalar key mod q448 = secret_scalar (xof key 114%nat) mod q448).
Proof. exact Uniform.derive_rfc_iff. Qed.
Print Assumptions C45_condition.
Theorem C45_half : 2 * tally enc_sign (strings 57) = 256 ^ 57.
Proof. exact Uniform.half_expanded. Qed.
Print Assumptions C45_half.
Example C45_case : length Samples.seed = 57%nat /\ bytes Samples.seed /\ enc_sign Samples.seed = false.
Proof. exact Samples.seed_ok. Qed.

(* C46 is false both ways *)
Theorem C46_deserialize_refuted :
  (exists inp, length inp = 56%nat /\ bytes inp /\ p448 <= le_val inp /\ must_deserialize inp <> None) /\
  (exists inp, length inp = 56%nat /\ bytes inp /\ le_val inp < p448 /\ must_deserialize inp = None).
Proof. exact Checks.deserialize_refuted. Qed.
Print Assumptions C46_deserialize_refuted.
(* what holds *)
Theorem C46_deserialize : forall inp, length inp = 56%nat -> bytes inp -> exists n,
  deserialize_return_mask inp = Some (n, mask32 (le_val inp mod 2 ^ 224 <? 2 ^ 224 - 2 ^ 112 - 1)) /\
  deserialize inp = Some (n, le_val inp mod 2 ^ 224 <? 2 ^ 224 - 2 ^ 112 - 1) /\
  must_deserialize inp = (if le_val inp mod 2 ^ 224 <? 2 ^ 224 - 2 ^ 112 - 1 then Some n else None) /\
  limbs_upto (2 ^ 28 - 1) n /\ words_val 28 (limbs n) = le_val inp.
Proof. exact Checks.deserialize_exact. Qed.
Print Assumptions C46_deserialize.
Theorem C46_deserialize_serialize : forall a, limbs_upto (2 ^ 32 - 16) a -> exists s, dsa_like_serialize a = Some s /\
  forall n, must_deserialize s = Some n -> fe n = fe a /\ words_val 28 (limbs n) = fval (fe a).
Proof. exact Checks.deserialize_serialize. Qed.
Print Assumptions C46_deserialize_serialize.
Example C46_case : length (le_bytes 56 (p448 + 1)) = 56%nat /\ bytes (le_bytes 56 (p448 + 1)) /\ limbs_upto (2 ^ 32 - 16) Samples.full.
Proof. exact Samples2.deserialize_case. Qed.

(* C47 is false both ways *)
Theorem C47_is_on_curve_refuted :
  (exists p Q, represents p Q /\ is_on_curve p = Some false) /\
  (exists p, carried_point p /\ ~ on_twisted p /\ is_on_curve p = Some true).
Proof. exact Checks.is_on_curve_refuted. Qed.
Print Assumptions C47_is_on_curve_refuted.
(* what holds *)
Theorem C47_is_on_curve : forall p, carried_point p ->
  is_on_curve p = Some (low_zero (fsub (fmul (fe (px p)) (fe (py p))) (fmul (fe (pz p)) (fe (ExtendedPoint.pt p)))) &&
    low_zero (fsub (fsub (fmul (fe (py p)) (fe (py p))) (fmul (fe (px p)) (fe (px p))))
       (fadd (fmul (fe (pz p)) (fe (pz p))) (fmul (mkF (-39082)) (fmul (fe (ExtendedPoint.pt p)) (fe (ExtendedPoint.pt p)))))) &&
    negb (low_zero (fe (pz p)))).
Proof. exact Checks.is_on_curve_exact. Qed.
Print Assumptions C47_is_on_curve.
Theorem C47_on_twisted : forall p, carried_point p -> on_twisted p -> is_on_curve p = Some (negb (low_zero (fe (pz p)))).
Proof. exact Checks.is_on_curve_true. Qed.
Print Assumptions C47_on_twisted.
Theorem C47_represents_on_twisted : forall p Q, represents p Q -> on_twisted p.
Proof. exact Checks.represents_on_twisted. Qed.
Print Assumptions C47_represents_on_twisted.
Example C47_case : (exists p, represents p ebase) /\ carried_point Checks.far /\ carried_point Checks.off.
Proof. exact Samples2.curve_case. Qed.

(* C48: S is unique modulo q *)
Theorem C48_unique_S : forall xof, is_xof xof -> forall pub sig sig' message A R,
  bytes pub -> bytes sig -> bytes sig' -> denotes pub A -> denotes (firstn 57 sig) R -> firstn 57 sig = firstn 57 sig' ->
  ed448_verify xof pub sig message = Some (Ok true) -> ed448_verify xof pub sig' message = Some (Ok true) ->
  le_val (firstn 57 (skipn 57 sig)) mod q448 = le_val (firstn 57 (skipn 57 sig')) mod q448 \/
  false_positive xof pub sig message \/ false_positive xof pub sig' message.
Proof. exact Bind.unique_S. Qed.
Print Assumptions C48_unique_S.
Example C48_case : bytes (eencode ebase) /\ bytes Samples.sig2 /\ bytes Samples2.sig2q /\ denotes (eencode ebase) ebase /\ denotes (firstn 57 Samples.sig2) ebase /\
  firstn 57 Samples.sig2 = firstn 57 Samples2.sig2q /\ Samples.sig2 <> Samples2.sig2q /\ subgroup_part ebase <> ezero /\ forall message,
  ed448_verify Samples.xof1 (eencode ebase) Samples.sig2 message = Some (Ok true) /\
  ed448_verify Samples.xof1 (eencode ebase) Samples2.sig2q message = Some (Ok true).
Proof. exact Samples2.unique_case. Qed.

(* C49: the message is bound up to a collision of the hash modulo q *)
Theorem C49_unique_challenge : forall xof, is_xof xof -> forall pub sig m m' A R,
  bytes pub -> bytes sig -> denotes pub A -> denotes (firstn 57 sig) R -> subgroup_part A <> ezero ->
  ed448_verify xof pub sig m = Some (Ok true) -> ed448_verify xof pub sig m' = Some (Ok true) ->
  rfc_challenge xof (firstn 57 sig) (eencode (subgroup_part A)) m mod q448 =
  rfc_challenge xof (firstn 57 sig) (eencode (subgroup_part A)) m' mod q448 \/
  false_positive xof pub sig m \/ false_positive xof pub sig m'.
Proof. exact Bind.unique_challenge. Qed.
Print Assumptions C49_unique_challenge.
(* and no further: with equal challenges the outcome is the same *)
Theorem C49_collision : forall xof, is_xof xof -> forall pub sig m m' A, bytes pub -> denotes pub A ->
  rfc_challenge xof (firstn 57 sig) (eencode (subgroup_part A)) m mod q448 =
  rfc_challenge xof (firstn 57 sig) (eencode (subgroup_part A)) m' mod q448 ->
  ed448_verify xof pub sig m = ed448_verify xof pub sig m'.
Proof. exact Queries.collision_transfers. Qed.
Print Assumptions C49_collision.
Example C49_collision_case : bytes (eencode ebase) /\ denotes (eencode ebase) ebase /\ forall m m',
  rfc_challenge Samples.xof1 (firstn 57 Samples.sig2) (eencode (subgroup_part ebase)) m mod q448 =
  rfc_challenge Samples.xof1 (firstn 57 Samples.sig2) (eencode (subgroup_part ebase)) m' mod q448.
Proof. exact Samples4.collision_case. Qed.
Example C49_case : bytes (eencode ebase) /\ bytes Samples.sig2 /\ bytes Samples2.sig2q /\ denotes (eencode ebase) ebase /\ denotes (firstn 57 Samples.sig2) ebase /\
  firstn 57 Samples.sig2 = firstn 57 Samples2.sig2q /\ Samples.sig2 <> Samples2.sig2q /\ subgroup_part ebase <> ezero /\ forall message,
  ed448_verify Samples.xof1 (eencode ebase) Samples.sig2 message = Some (Ok true) /\
  ed448_verify Samples.xof1 (eencode ebase) Samples2.sig2q message = Some (Ok true).
Proof. exact Samples2.unique_case. Qed.

(* C50 is false *)
Theorem C50_small_key_refuted : forall xof, is_xof xof -> forall pub A s, bytes pub -> pub <> repeat 0 57 -> decodable pub ->
  denotes pub A -> subgroup_part A = ezero -> 0 <= s < 256 ^ 57 -> decodable (eencode (emul s ebase)) -> forall message,
  ed448_verify xof pub (eencode (emul s ebase) ++ le_bytes 57 s) message = Some (Ok true).
Proof. exact Bind.small_key_forgery. Qed.
Print Assumptions C50_small_key_refuted.
Theorem C50_equation : forall A S R k, on_curve A -> on_curve R -> subgroup_part A = ezero ->
  (rfc_equation S R k A <-> emul (4 * S) ebase = emul 4 R).
Proof. exact Bind.small_key_equation. Qed.
Print Assumptions C50_equation.
Example C50_case : bytes (eencode ezero) /\ eencode ezero <> repeat 0 57 /\ decodable (eencode ezero) /\ denotes (eencode ezero) ezero /\
  subgroup_part ezero = ezero /\ decodable (eencode (emul 4 ebase)).
Proof. exact Samples2.small_case. Qed.

(* C51: private_to_secret and signing *)
Theorem C51_expanded_form : forall xof, is_xof xof -> forall key, length key = 57%nat -> bytes key -> enc_sign key = false -> exists s,
  private_to_secret xof key = Some s /\ length s = 57%nat /\ bytes s /\ enc_sign s = true /\ key_scalar xof s = key_scalar xof key /\
  ed448_derive_public xof s = ed448_derive_public xof key /\
  forall message pub sig, ed448_derive_public xof key = Some pub -> ed448_sign xof s message = Some sig ->
  (ed448_verify xof pub sig message = Some (Ok true) <-> decodable pub /\ decodable (firstn 57 sig)).
Proof. exact Bind.expanded_form. Qed.
Print Assumptions C51_expanded_form.
Example C51_case : length Samples.seed = 57%nat /\ bytes Samples.seed /\ enc_sign Samples.seed = false.
Proof. exact Samples.seed_ok. Qed.

(* C52: two signatures with the same R *)
Theorem C52_shared_R : forall xof, is_xof xof -> forall key pub m m' sig sig', length key = 57%nat -> bytes key ->
  ed448_derive_public xof key = Some pub ->
  ed448_sign xof key m = Some sig -> ed448_sign xof key m' = Some sig' -> firstn 57 sig = firstn 57 sig' ->
  let k := rfc_challenge xof (firstn 57 sig) pub m in let k' := rfc_challenge xof (firstn 57 sig) pub m' in
  let S := le_val (skipn 57 sig) in let S' := le_val (skipn 57 sig') in
  ((k - k') * key_scalar xof key) mod q448 = (S - S') mod q448 /\
  (k mod q448 <> k' mod q448 -> forall x, 0 <= x < q448 -> ((k - k') * x) mod q448 = (S - S') mod q448 -> x = key_scalar xof key mod q448).
Proof. exact Bind.shared_R. Qed.
Print Assumptions C52_shared_R.
Example C52_case : is_xof Samples2.xof2 /\ exists sig sig', ed448_derive_public Samples2.xof2 Samples.key4 = Some (eencode (emul 4 ebase)) /\
  ed448_sign Samples2.xof2 Samples.key4 [1] = Some sig /\ ed448_sign Samples2.xof2 Samples.key4 [2] = Some sig' /\ firstn 57 sig = firstn 57 sig' /\
  rfc_challenge Samples2.xof2 (firstn 57 sig) (eencode (emul 4 ebase)) [1] mod q448 = 1 /\
  rfc_challenge Samples2.xof2 (firstn 57 sig) (eencode (emul 4 ebase)) [2] mod q448 = 2.
Proof. exact Samples2.shared_case. Qed.

(* C53: scalar building blocks *)
Theorem C53_montgomery : forall x y, words32 x -> reduced y -> exists r, montgomery_multiply x y = Some r /\ reduced r /\
  (sc r * 2 ^ 448) mod q448 = (sc x * sc y) mod q448.
Proof. exact Checks.montgomery. Qed.
Print Assumptions C53_montgomery.
Theorem C53_mul : forall x y, words32 x -> reduced y -> returns_sc (smul x y) (sc x * sc y).
Proof. exact Checks.mul_any. Qed.
Print Assumptions C53_mul.
Theorem C53_decode : forall b, bytes b ->
  (decode b = None <-> (length b < 56)%nat) /\ ((56 <= length b)%nat -> returns_sc (decode b) (le_val (firstn 56 b))).
Proof. exact Checks.decode_exact. Qed.
Print Assumptions C53_decode.
Example C53_case : words32 (repeat (2 ^ 32 - 1) 14) /\ reduced Samples.qm1 /\ bytes Samples.seed /\ (56 <= length Samples.seed)%nat.
Proof. exact Samples2.scalar_case. Qed.

(* C54: accessors *)
Theorem C54_equal_keys : forall xof k k' sk sk', keypair xof k sk -> keypair xof k' sk' -> (sk = sk' <-> k = k').
Proof. exact ApiMore.keypair_eq. Qed.
Print Assumptions C54_equal_keys.
Theorem C54_accessors : forall xof, is_xof xof -> forall k sk, keypair xof k sk ->
  signing_from_secret xof (get_secret_key sk) = Some sk /\ signing_from_slice xof (to_bytes sk) = Some sk /\
  signing_from_bytes xof (to_bytes sk) = Some (Ok sk) /\
  secret_from_bytes (to_bytes sk) = Some (get_secret_key sk) /\
  length (as_bytes (get_verifying_key sk)) = 57%nat /\ bytes (as_bytes (get_verifying_key sk)) /\
  verifying_from_bytes (as_bytes (get_verifying_key sk)) = Some (get_verifying_key sk).
Proof. exact ApiMore.accessors. Qed.
Print Assumptions C54_accessors.
Theorem C54_signature_layout : forall xof, is_xof xof -> forall k sk message, keypair xof k sk -> bytes message -> exists s,
  sign_prehash xof sk message = Some (Ok s) /\ length (as_slice s) = 171%nat /\ bytes (as_slice s) /\
  ed448_sign xof k message = Some (firstn 114 (as_slice s)) /\ skipn 114 (as_slice s) = as_bytes (get_verifying_key sk).
Proof. exact ApiMore.signature_layout. Qed.
Print Assumptions C54_signature_layout.
Example C54_case : exists sk, keypair shake256 Samples.seed sk.
Proof. exact Samples.keypair_case. Qed.

(* C55: texts of errors; the text of DecodeError is misspelt *)
Theorem C55_display_text : forall e t, fits e -> (error_display e = t <->
  match e with
  | DecodeError => t = codes "DecodeErrro"
  | DecodePubkeyError => t = codes "DecodePubkeyError"
  | DecodeSignatureError => t = codes "DecodeSignatureError"
  | InvalidLengthError => t = codes "InvalidLengthError"
  | InvalidPrivKeyLengthErrro n => exists d, decimal n d /\ t = codes "Invalid PrivateKey Length, expected: 57 bytes, got: " ++ d ++ codes " bytes"
  | InvalidPubkeyLengthError => t = codes "InvalidPubkeyLengthError"
  | InvalidSignatureLengthError => t = codes "InvalidSignatureLengthError"
  | InvalidSignatureError => t = codes "InvalidSignatureError"
  end).
Proof. exact TextProofs.display_text. Qed.
Print Assumptions C55_display_text.
Theorem C55_display_distinct : forall e e', fits e -> fits e' -> error_display e = error_display e' -> e = e'.
Proof. exact TextProofs.display_inj. Qed.
Print Assumptions C55_display_distinct.
Theorem C55_debug_distinct : forall e e', fits e -> fits e' -> error_debug e = error_debug e' -> e = e'.
Proof. exact TextProofs.debug_inj. Qed.
Print Assumptions C55_debug_distinct.
Theorem C55_display_is_not_debug : error_display DecodeError <> error_debug DecodeError.
Proof. exact TextProofs.display_name_refuted. Qed.
Print Assumptions C55_display_is_not_debug.
Example C55_case : fits (InvalidPrivKeyLengthErrro 1203) /\ decimal 1203 (codes "1203") /\ show_usize 1203 = codes "1203" /\ ~ decimal 7 (codes "07").
Proof. exact TextProofs.error_case. Qed.

(* C56 is false: three variants are never returned *)
Theorem C56_every_error_occurs_refuted : forall xof, is_xof xof ->
  ~ api_error xof DecodeError /\ ~ api_error xof InvalidLengthError /\ ~ api_error xof InvalidSignatureLengthError.
Proof. exact ApiMore.errors_unused. Qed.
Print Assumptions C56_every_error_occurs_refuted.
(* exactly the errors that are returned *)
Theorem C56_errors_returned : forall xof, is_xof xof -> forall e, api_error xof e <->
  match e with
  | InvalidSignatureError | InvalidPubkeyLengthError | DecodePubkeyError | DecodeSignatureError => True
  | InvalidPrivKeyLengthErrro n => 0 <= n /\ n <> 57
  | DecodeError | InvalidLengthError | InvalidSignatureLengthError => False
  end.
Proof. exact ApiMore.errors_returned. Qed.
Print Assumptions C56_errors_returned.
Example C56_case : is_xof Samples.xof1 /\ exists e, api_error Samples.xof1 e.
Proof. exact ApiMore.errors_case. Qed.

(* C57 is false: the debug text of a secret key or a signing key determines the secret *)
Theorem C57_debug_hides_secret_refuted : forall k k', bytes k -> bytes k' ->
  secret_debug (SecretKey k) = secret_debug (SecretKey k') -> k = k'.
Proof. exact TextProofs.secret_debug_reveals. Qed.
Print Assumptions C57_debug_hides_secret_refuted.
Theorem C57_debug_hides_signing_key_refuted : forall xof k k' sk sk', keypair xof k sk -> keypair xof k' sk' ->
  signing_debug sk = signing_debug sk' -> k = k'.
Proof. exact TextProofs.signing_debug_reveals. Qed.
Print Assumptions C57_debug_hides_signing_key_refuted.
(* the text *)
Theorem C57_debug_text : forall k t, bytes k ->
  (secret_debug (SecretKey k) = t <-> exists items, listed decimal k items /\ t = codes "SecretKey { key: [" ++ items ++ codes "] }").
Proof. exact TextProofs.secret_debug_text. Qed.
Print Assumptions C57_debug_text.
Example C57_case : secret_debug (SecretKey [1; 20; 255]) = codes "SecretKey { key: [1, 20, 255] }" /\ bytes [1; 20; 255] /\
  secret_debug (SecretKey Samples.seed) <> secret_debug (SecretKey (repeat 0 57)).
Proof. exact ApiMore.debug_case. Qed.

(* C58 is false: public keys are not validated *)
Theorem C58_key_validated_refuted : exists k v, length k = 57%nat /\ bytes k /\ verifying_from_bytes k = Some v /\
  verifying_from_str (lower_text k) = Some v /\ ~ decodable k /\
  forall xof, is_xof xof -> forall sig message, bytes sig -> sig <> repeat 0 114 ->
  ed448_verify xof (as_bytes v) sig message = Some (Err DecodePubkeyError).
Proof. exact ApiMore.key_not_validated. Qed.
Print Assumptions C58_key_validated_refuted.

(* C59: small constructors *)
Theorem C59_scalar_constructors :
  (forall a, words32 a -> copy a = a) /\
  (forall w, 0 <= w < 2 ^ 32 -> words32 (ScalarModel.set w) /\ sc (ScalarModel.set w) = w) /\
  words32 create_zero_scalar /\ sc create_zero_scalar = 0.
Proof. exact ApiMore.scalar_constructors. Qed.
Print Assumptions C59_scalar_constructors.
Theorem C59_point_constructors : Forall (fun a => carried a /\ fe a = fzero)
  [na niels_new; nb niels_new; nc niels_new; na (pn pniels_new); nb (pn pniels_new); nc (pn pniels_new); pnz pniels_new;
   px point_new; py point_new; pz point_new; ExtendedPoint.pt point_new].
Proof. exact ApiMore.point_constructors. Qed.
Print Assumptions C59_point_constructors.
Example C59_case : words32 Samples.qm1.
Proof. exact ApiMore.words_case. Qed.

(* C60 is false: the share of canonical y that the range test refuses is not below 2^-100 *)
Theorem C60_refusals_rare_refuted : 2 ^ 100 * tally (fun y => negb (range_test y)) (below p448) > p448.
Proof. exact Count.not_rare. Qed.
Print Assumptions C60_refusals_rare_refuted.
(* the exact number, which is between 2^-35 and 2^-34 of all *)
Theorem C60_refused_count : tally (fun y => negb (range_test y)) (below p448) = 2113536 * 2 ^ 392 /\
  tally (fun y => negb (range_test y)) (below (2 ^ 448)) = 2113536 * 2 ^ 392.
Proof. exact Count.refused_both. Qed.
Print Assumptions C60_refused_count.
Theorem C60_share : 2 ^ 34 * (2113536 * 2 ^ 392) < p448 < 2 ^ 35 * (2113536 * 2 ^ 392).
Proof. exact Count.refused_share. Qed.
Print Assumptions C60_share.
Theorem C60_refused : forall y b, 0 <= y < 2 ^ 448 -> 0 <= b < 256 -> range_test y = false ->
  eddsa_like_decode (le_bytes 56 y ++ [b]) = Some (Err DecodeError).
Proof. exact Count.refused_decode. Qed.
Print Assumptions C60_refused.
Example C60_case : exists y, 0 <= y < p448 /\ range_test y = false /\ exists y', 0 <= y' < p448 /\ range_test y' = true.
Proof. exact Count.refused_case. Qed.

(* C61 is false: MODULUS is p in words of 24 and 32 bits, not in the limbs of 28 bits it is used with *)
Theorem C61_modulus_refuted : words_val RADIX MODULUS <> p448.
Proof. exact ConstFacts.modulus_wrong. Qed.
Print Assumptions C61_modulus_refuted.
Theorem C61_modulus_packed : packed_val MODULUS = p448.
Proof. exact ConstFacts.modulus_packed. Qed.
Print Assumptions C61_modulus_packed.
(* the other constants *)
Theorem C61_scalar_constants :
  words32 SCALAR_Q /\ sc SCALAR_Q = q448 /\
  reduced SCALAR_R2 /\ sc SCALAR_R2 = 2 ^ 448 * 2 ^ 448 mod q448 /\
  reduced SCALAR_ZERO /\ sc SCALAR_ZERO = 0 /\
  0 <= MONTGOMERY_FACTOR < 2 ^ 32 /\ (MONTGOMERY_FACTOR * q448) mod 2 ^ 32 = 2 ^ 32 - 1.
Proof. exact ConstFacts.scalar_constants. Qed.
Print Assumptions C61_scalar_constants.
Theorem C61_size_constants :
  2 ^ (SCALAR_BITS - 1) <= q448 < 2 ^ SCALAR_BITS /\ SCALAR_BITS <= SCALAR_WORDS * WORD_BITS < SCALAR_BITS + WORD_BITS /\
  SCALAR_LIMBS = SCALAR_WORDS /\ SCALAR_BITS <= 8 * SCALAR_BYTES < SCALAR_BITS + 8 /\ SCALAR_SER_BYTES = SCALAR_BYTES /\
  2 ^ (N_LIMBS * RADIX - 1) <= p448 < 2 ^ (N_LIMBS * RADIX) /\ 8 * FIELD_BYTES = N_LIMBS * RADIX /\
  SCALAR_BITS <= DECAF_COMB_NUMBER * DECAF_COMB_TEETH * DECAF_COMB_SPACING.
Proof. exact ConstFacts.size_constants. Qed.
Print Assumptions C61_size_constants.
Theorem C61_field_constants : mkF EDWARDS_D = ecd /\ carried BIG_ZERO /\ fe BIG_ZERO = fzero /\ carried BIG_ONE /\ fe BIG_ONE = fone.
Proof. exact ConstFacts.field_constants. Qed.
Print Assumptions C61_field_constants.

(* C62: signatures are valid for other verifiers *)
Theorem C62_honest_valid : forall xof, is_xof xof -> forall key message pub sig, length key = 57%nat -> bytes key ->
  ed448_derive_public xof key = Some pub -> ed448_sign xof key message = Some sig -> rfc_valid xof pub sig message.
Proof. exact Interop.honest_valid. Qed.
Print Assumptions C62_honest_valid.
Example C62_case : exists pub sig, length Samples.key4 = 57%nat /\ bytes Samples.key4 /\
  ed448_derive_public shake256 Samples.key4 = Some pub /\ ed448_sign shake256 Samples.key4 [1; 2] = Some sig.
Proof. exact Interop.honest_case. Qed.

(* C63 is false: a key outside the group of B; the verifier hashes another encoding than the given one *)
Theorem C63_verify_is_rfc_refuted : exists pub sig message A R, rfc_decodes pub A /\ rfc_decodes (firstn 57 sig) R /\
  bytes sig /\ length sig = 114%nat /\ le_val (skipn 57 sig) < q448 /\
  ed448_verify shake256 pub sig message = Some (Ok true) /\ ~ rfc_valid shake256 pub sig message.
Proof. exact Interop.mixed_refuted. Qed.
Print Assumptions C63_verify_is_rfc_refuted.
(* what holds *)
Theorem C63_mixed_key : forall xof, is_xof xof -> forall pub sig message A, bytes pub -> bytes sig -> rfc_decodes pub A ->
  subgroup_part A <> ezero -> rfc_valid xof pub sig message -> ed448_verify xof pub sig message = Some (Ok true) ->
  rfc_challenge xof (firstn 57 sig) pub message mod q448 = rfc_challenge xof (firstn 57 sig) (eencode (subgroup_part A)) message mod q448 \/
  false_positive xof pub sig message.
Proof. exact Interop.mixed_key. Qed.
Print Assumptions C63_mixed_key.
Example C63_case : exists pub A, rfc_decodes pub A /\ subgroup_part A <> ezero /\ subgroup_part A <> A.
Proof. exact Interop.mixed_case. Qed.

(* C64: the public key determines the secret scalar *)
Theorem C64_scalar_unique : forall xof, is_xof xof -> forall key key' pub pub',
  length key = 57%nat -> bytes key -> length key' = 57%nat -> bytes key' ->
  ed448_derive_public xof key = Some pub -> ed448_derive_public xof key' = Some pub' ->
  (pub = pub' <-> key_scalar xof key = key_scalar xof key').
Proof. exact Interop.scalar_unique. Qed.
Print Assumptions C64_scalar_unique.
Example C64_case : length Samples.key4 = 57%nat /\ bytes Samples.key4 /\ length Samples.seed = 57%nat /\ bytes Samples.seed /\
  key_scalar shake256 Samples.key4 <> key_scalar shake256 Samples.seed.
Proof. exact Interop.unique_case. Qed.

(* C65: the functions that the public ones are built from *)
Theorem C65_clamp : forall l, bytes l ->
  (clamp l = None <-> (length l < 57)%nat) /\
  ((57 <= length l)%nat -> clamp l = Some (le_bytes 57 (secret_scalar l) ++ skipn 57 l)).
Proof. exact Blocks.clamp_exact. Qed.
Print Assumptions C65_clamp.
Theorem C65_point_by_secret : forall l, length l = 57%nat -> bytes l -> exists p m, point_by_secret l = Some p /\
  represents p (emul m ebase) /\ (4 * m) mod q448 = secret_scalar l mod q448.
Proof. exact Blocks.point_by_secret_exact. Qed.
Print Assumptions C65_point_by_secret.
Theorem C65_private_to_secret : forall xof, is_xof xof -> forall k,
  private_to_secret xof k = Some (firstn 56 (xof k 57%nat) ++ [nth 56 (xof k 57%nat) 0 mod 128 + 128]).
Proof. exact Blocks.private_to_secret_exact. Qed.
Print Assumptions C65_private_to_secret.
Theorem C65_blocks : forall xof, is_xof xof -> forall k message,
  private_to_public xof k = Some (rfc_public xof k) /\ sign_by_private xof k message = Some (rfc_sign xof k message) /\
  (length k = 57%nat -> bytes k ->
    secret_to_public k = Some (eencode (emul (secret_scalar k) ebase)) /\
    forall prefix, sign_with_secret_and_nonce xof k prefix message =
      Some (rfc_sign_with xof (secret_scalar k) prefix (eencode (emul (secret_scalar k) ebase)) message)).
Proof. exact Blocks.blocks. Qed.
Print Assumptions C65_blocks.
Theorem C65_zero_test : forall xof pub sig message,
  (zero_input pub sig -> ed448_verify xof pub sig message = Some (Err InvalidSignatureError)) /\
  (~ zero_input pub sig -> ed448_verify xof pub sig message = dsa_verify xof pub sig message).
Proof. exact Blocks.zero_test. Qed.
Print Assumptions C65_zero_test.
Example C65_case : length Samples.seed = 57%nat /\ bytes Samples.seed /\ ~ zero_input Samples.seed [] /\ zero_input (repeat 0 57) [].
Proof. exact Blocks.blocks_case. Qed.

(* C66 is false: the domain prefix has flag 0, not 1, whatever the length of the prehash.  What holds is
   C39: pure Ed448 over the prehash. *)
Theorem C66_prehash_refuted : exists key sk h sig, length h = 64%nat /\ bytes h /\ enc_sign key = false /\ keypair shake256 key sk /\
  sign_prehash shake256 sk h = Some (Ok sig) /\ firstn 114 (as_slice sig) <> rfc_ph_sign shake256 key h.
Proof. exact Protocol.prehash_refuted. Qed.
Print Assumptions C66_prehash_refuted.

(* C67: two accepted transcripts with one R and two challenges give the secret *)
Theorem C67_extraction : forall xof xof', is_xof xof -> is_xof xof' -> forall pub sig sig' m m' A R,
  bytes pub -> bytes sig -> bytes sig' -> denotes pub A -> denotes (firstn 57 sig) R -> firstn 57 sig = firstn 57 sig' ->
  ed448_verify xof pub sig m = Some (Ok true) -> ed448_verify xof' pub sig' m' = Some (Ok true) ->
  let k := rfc_challenge xof (firstn 57 sig) (eencode (subgroup_part A)) m in
  let k' := rfc_challenge xof' (firstn 57 sig) (eencode (subgroup_part A)) m' in
  let S := le_val (firstn 57 (skipn 57 sig)) in let S' := le_val (firstn 57 (skipn 57 sig')) in
  k mod q448 <> k' mod q448 ->
  (exists x, 0 <= x < q448 /\ ((k - k') * x) mod q448 = (S - S') mod q448 /\ subgroup_part A = emul x ebase) \/
  false_positive xof pub sig m \/ false_positive xof' pub sig' m'.
Proof. exact Protocol.extraction. Qed.
Print Assumptions C67_extraction.
Theorem C67_extracted_secret : forall xof, is_xof xof -> forall key pub x, length key = 57%nat -> bytes key -> ed448_derive_public xof key = Some pub ->
  0 <= x < q448 -> forall A, rfc_decodes pub A -> subgroup_part A = emul x ebase -> x = key_scalar xof key mod q448.
Proof. exact Protocol.extraction_key. Qed.
Print Assumptions C67_extracted_secret.
Example C67_case : exists pub sig sig', pub = eencode (emul 4 ebase) /\ bytes pub /\ bytes sig /\ bytes sig' /\
  denotes pub (emul 4 ebase) /\ rfc_decodes pub (emul 4 ebase) /\ denotes (firstn 57 sig) ebase /\ firstn 57 sig = firstn 57 sig' /\
  ed448_derive_public Samples2.xof2 Samples.key4 = Some pub /\ subgroup_part (emul 4 ebase) = emul 4 ebase /\
  ed448_verify Samples2.xof2 pub sig [1] = Some (Ok true) /\ ed448_verify Samples2.xof2 pub sig' [2] = Some (Ok true) /\
  rfc_challenge Samples2.xof2 (firstn 57 sig) (eencode (subgroup_part (emul 4 ebase))) [1] mod q448 <>
  rfc_challenge Samples2.xof2 (firstn 57 sig) (eencode (subgroup_part (emul 4 ebase))) [2] mod q448.
Proof. exact Samples3.shared_accepted. Qed.

(* C68: transcripts can be made without the secret if the hash may be chosen at one input *)
Theorem C68_simulation : forall xof, is_xof xof -> forall pub A S k message, bytes pub -> pub <> repeat 0 57 -> decodable pub -> denotes pub A ->
  0 <= S < 256 ^ 57 -> 0 <= k < 256 ^ 114 ->
  let R := eadd (emul S ebase) (eneg (emul k A)) in
  let sig := eencode R ++ le_bytes 57 S in
  let input := rfc_dom ++ eencode R ++ eencode (subgroup_part A) ++ message in
  let xof' := programmed xof input (le_bytes 114 k) in
  decodable (eencode R) -> sig <> repeat 0 114 ->
  is_xof xof' /\ (forall x n, x <> input -> xof' x n = xof x n) /\ le_val (xof' input 114%nat) = k /\
  ed448_verify xof' pub sig message = Some (Ok true).
Proof. exact Protocol.simulation. Qed.
Print Assumptions C68_simulation.
(* the transcripts made without the secret x are those made with it *)
Theorem C68_perfect : forall x k S R, 0 <= S < q448 ->
  (R = eadd (emul S ebase) (eneg (emul k (emul x ebase))) <-> exists r, 0 <= r < q448 /\ R = emul r ebase /\ S = (r + k * x) mod q448).
Proof. exact Transcripts.perfect_simulation. Qed.
Print Assumptions C68_perfect.
Example C68_perfect_case : 0 <= 2 < q448 /\ ebase = eadd (emul 2 ebase) (eneg (emul 1 (emul 1 ebase))).
Proof. exact Transcripts.perfect_case. Qed.
Example C68_case : bytes (eencode ebase) /\ eencode ebase <> repeat 0 57 /\ decodable (eencode ebase) /\ denotes (eencode ebase) ebase /\
  0 <= 2 < 256 ^ 57 /\ 0 <= 1 < 256 ^ 114 /\ decodable (eencode (eadd (emul 2 ebase) (eneg (emul 1 ebase)))) /\
  eencode (eadd (emul 2 ebase) (eneg (emul 1 ebase))) ++ le_bytes 57 2 <> repeat 0 114.
Proof. exact Samples3.simulation_case. Qed.

(* C69: honest signatures satisfy the equation without cofactor *)
Theorem C69_cofactorless : forall xof, is_xof xof -> forall key message pub sig, length key = 57%nat -> bytes key ->
  ed448_derive_public xof key = Some pub -> ed448_sign xof key message = Some sig ->
  exists A R, rfc_decodes pub A /\ rfc_decodes (firstn 57 sig) R /\ emul q448 A = ezero /\ emul q448 R = ezero /\
  plain_equation (le_val (skipn 57 sig)) R (rfc_challenge xof (firstn 57 sig) pub message) A.
Proof. exact Protocol.honest_plain. Qed.
Print Assumptions C69_cofactorless.
Example C69_case : exists pub sig, length Samples.key4 = 57%nat /\ bytes Samples.key4 /\
  ed448_derive_public shake256 Samples.key4 = Some pub /\ ed448_sign shake256 Samples.key4 [1; 2] = Some sig.
Proof. exact Interop.honest_case. Qed.

(* C70 is false, for every message: R with a component of order 2 *)
Theorem C70_accepted_cofactorless_refuted : forall xof, is_xof xof -> forall message, exists pub sig A R, rfc_decodes pub A /\ emul q448 A = ezero /\ A <> ezero /\
  rfc_decodes (firstn 57 sig) R /\ rfc_valid xof pub sig message /\ ed448_verify xof pub sig message = Some (Ok true) /\
  ~ plain_equation (le_val (skipn 57 sig)) R (rfc_challenge xof (firstn 57 sig) pub message) A.
Proof. exact Protocol.plain_refuted. Qed.
Print Assumptions C70_accepted_cofactorless_refuted.
(* what holds: the equation up to a point of order 1, 2 or 4 *)
Theorem C70_up_to_torsion : forall S R k A, on_curve R -> on_curve A ->
  (rfc_equation S R k A <-> exists T, on_curve T /\ emul 4 T = ezero /\ plain_equation S (eadd R T) k A).
Proof. exact Protocol.plain_torsion. Qed.
Print Assumptions C70_up_to_torsion.
Example C70_case : on_curve (eadd ebase Samples.point2) /\ on_curve ebase /\ rfc_equation ((1 + 5) mod q448) (eadd ebase Samples.point2) 5 ebase /\
  ~ plain_equation ((1 + 5) mod q448) (eadd ebase Samples.point2) 5 ebase.
Proof. exact Samples3.torsion_case. Qed.

(* C71 is false, for every message *)
Theorem C71_one_key_refuted : forall xof, is_xof xof -> forall message, exists pub pub' sig, pub <> pub' /\
  (exists A, rfc_decodes pub A /\ emul q448 A = ezero /\ A <> ezero) /\ (exists A', rfc_decodes pub' A') /\ rfc_valid xof pub sig message /\
  ed448_verify xof pub sig message = Some (Ok true) /\ ed448_verify xof pub' sig message = Some (Ok true).
Proof. exact Protocol.two_keys_refuted. Qed.
Print Assumptions C71_one_key_refuted.
(* in general: every honest signature is accepted under all decodable keys A + T with 4 T = 0 *)
Theorem C71_shifted_keys : forall xof, is_xof xof -> forall key message pub sig A T pub', length key = 57%nat -> bytes key ->
  ed448_derive_public xof key = Some pub -> ed448_sign xof key message = Some sig -> decodable pub -> decodable (firstn 57 sig) ->
  rfc_decodes pub A -> on_curve T -> emul 4 T = ezero -> pub' = eencode (eadd A T) -> decodable pub' -> pub' <> repeat 0 57 ->
  ed448_verify xof pub' sig message = Some (Ok true).
Proof. exact Protocol.alias_accepts. Qed.
Print Assumptions C71_shifted_keys.
Example C71_case : forall message, exists pub sig, length Samples.key4 = 57%nat /\ bytes Samples.key4 /\ ed448_derive_public Samples.xof1 Samples.key4 = Some pub /\
  ed448_sign Samples.xof1 Samples.key4 message = Some sig /\ decodable pub /\ decodable (firstn 57 sig) /\ rfc_decodes pub (emul 4 ebase) /\ on_curve Samples.point2 /\
  emul 4 Samples.point2 = ezero /\ decodable (eencode (eadd (emul 4 ebase) Samples.point2)) /\ eencode (eadd (emul 4 ebase) Samples.point2) <> repeat 0 57 /\
  eencode (eadd (emul 4 ebase) Samples.point2) <> pub.
Proof. exact Samples3.alias_key_case. Qed.

(* C72 is false *)
Theorem C72_no_panic_refuted : forall xof, is_xof xof -> exists pub sig, bytes pub /\ bytes sig /\
  (forall message, ed448_verify xof pub sig message = None /\ ed448_verify_with_error xof pub sig message = None) /\
  secret_from_str [] = None /\ verifying_from_str [] = None /\ signing_from_str xof [] = None /\
  secret_from_bytes [] = None /\ verifying_from_bytes [] = None /\ signing_from_slice xof [] = None /\
  hex_to_message_hash [] = None /\ hex_to_private_key [] = None /\ hex_to_signature [] = None.
Proof. exact Panics.panics_refuted. Qed.
Print Assumptions C72_no_panic_refuted.
(* exactly when *)
Theorem C72_verify_panics : forall xof, is_xof xof -> forall pub sig message, bytes pub -> bytes sig ->
  let bad := ~ zero_input pub sig /\ decodable pub /\ (length sig < 114)%nat in
  (ed448_verify xof pub sig message = None <-> bad) /\ (ed448_verify_with_error xof pub sig message = None <-> bad).
Proof. exact Panics.verify_panics. Qed.
Print Assumptions C72_verify_panics.
Theorem C72_text_panics : forall xof, is_xof xof -> forall s,
  let bad := ~ (length s = 114%nat /\ Forall is_digit s) in
  (secret_from_str s = None <-> bad) /\ (verifying_from_str s = None <-> bad) /\ (signing_from_str xof s = None <-> bad) /\
  (secret_deserialize (Format true) (Ok s) = None <-> bad) /\ (verifying_deserialize (Format true) (Ok s) = None <-> bad) /\
  (signing_deserialize xof (Format true) (Ok s) = None <-> bad) /\ (hex_to_private_key s = None <-> bad).
Proof. exact Panics.text_panics. Qed.
Print Assumptions C72_text_panics.
Theorem C72_slice_panics : forall xof, is_xof xof -> forall k, bytes k ->
  (secret_from_bytes k = None <-> length k <> 57%nat) /\ (verifying_from_bytes k = None <-> length k <> 57%nat) /\
  (signing_from_slice xof k = None <-> length k <> 57%nat) /\ (exists r, signing_from_bytes xof k = Some r).
Proof. exact Panics.slice_panics. Qed.
Print Assumptions C72_slice_panics.
Theorem C72_never_panics : forall xof, is_xof xof -> forall k v message, length k = 57%nat -> bytes k -> length v = 57%nat ->
  ed448_derive_public xof k <> None /\ ed448_sign xof k message <> None /\
  private_to_secret xof k <> None /\ private_to_public xof k <> None /\ sign_by_private xof k message <> None /\
  point_by_secret k <> None /\ secret_to_public k <> None /\ (forall nonce, sign_with_secret_and_nonce xof k nonce message <> None) /\
  signing_from_secret xof (SecretKey k) <> None /\ signing_random xof k <> None /\
  sign_prehash xof (SigningKey (SecretKey k) (VerifyingKey v)) message <> None.
Proof. exact Panics.never_panics. Qed.
Print Assumptions C72_never_panics.
Example C72_case : exists s, length s = 114%nat /\ Forall is_digit s /\ ~ (length (@nil Z) = 114%nat /\ Forall is_digit []) /\
  length Samples.seed = 57%nat /\ bytes Samples.seed /\ ~ zero_input (eencode ebase) [] /\ decodable (eencode ebase).
Proof. exact Panics.panics_case. Qed.
