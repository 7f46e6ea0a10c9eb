{"id": "C01", "title": "Public key derivation is RFC 8032 Ed448 (seed keys)", "statement": "For a 57-byte private key whose last byte has bit 7 clear, ed448_derive_public returns exactly the RFC 8032 Ed448 public key: hash the key with SHAKE256, take 57 bytes, clamp, read little-endian as s, and encode the curve point [s]B of x^2+y^2=1-39081x^2y^2 as 57 bytes (little-endian y, sign of x in the top bit).", "quantifier": "all 57-byte keys with the top bit of byte 56 clear; every output SHAKE256 could give", "why_tests_cant": "2^455 keys; unit tests check two of them. The code never works on the RFC curve: it uses a 4-isogenous twisted curve, a signed comb and precomputed tables, so an error for a rare digit pattern or carry would not show.", "anchors": ["src/goldilocks.rs:ed448_derive_public", "src/goldilocks.rs:private_to_public", "src/goldilocks.rs:secret_to_public", "src/goldilocks.rs:point_by_secret", "src/extended_point.rs:precomputed_scalar_mul", "src/extended_point.rs:eddsa_like_encode"]}
{"id": "C02", "title": "Public key derivation for expanded-secret keys", "statement": "For a 57-byte key whose last byte has bit 7 set, ed448_derive_public returns the RFC encoding of [s]B where s is the little-endian value of the clamped key bytes themselves (no hashing).", "quantifier": "all 57-byte keys with the top bit of byte 56 set", "why_tests_cant": "same input space as C01; every clamped scalar 2^447+4k, including those at and above the group order, must be right", "anchors": ["src/goldilocks.rs:ed448_derive_public", "src/goldilocks.rs:secret_to_public", "src/goldilocks.rs:point_by_secret", "src/eddsa.rs:clamp"]}
{"id": "C03", "title": "Signing is RFC 8032 Ed448 (seed keys)", "statement": "For a key with the top bit clear, ed448_sign(key, m) returns R || S, where (s, prefix) come from SHAKE256(key) as in RFC 8032, r = H(dom || prefix || m) mod q, R = enc([r]B), S = (r + H(dom || R || A || m) * s) mod q as 57 little-endian bytes, dom = 'SigEd448' 0 0.", "quantifier": "all 57-byte keys with the top bit clear, all messages of any length, every XOF", "why_tests_cant": "infinitely many messages; tests use one message and a handful of keys. Scalar arithmetic (Montgomery, halving, reduction of 912-bit hashes) has corner cases with probability near 2^-32 or less.", "anchors": ["src/goldilocks.rs:ed448_sign", "src/goldilocks.rs:sign_by_private", "src/scalar.rs:mul", "src/scalar.rs:add", "src/scalar.rs:decode_long", "src/eddsa.rs:hash_with_dom"]}
{"id": "C04", "title": "Signing in expanded-secret mode", "statement": "For a key with the top bit set, ed448_sign(key, m) is the RFC 8032 signature with secret scalar s = LE(clamp(key)) and with the clamped key bytes used as the nonce prefix.", "quantifier": "all 57-byte keys with the top bit set, all messages, every XOF", "why_tests_cant": "as C03; in addition the mode switch is on a single bit", "anchors": ["src/goldilocks.rs:ed448_sign", "src/goldilocks.rs:sign_with_secret_and_nonce"]}
{"id": "C05", "title": "Every honest signature verifies", "statement": "ed448_verify(ed448_derive_public(k), ed448_sign(k, m), m) = Ok(true).", "quantifier": "all 57-byte keys k of both kinds, all messages m", "why_tests_cant": "the tests try 100 random keys on one message; the statement is about all keys and messages, and failures with probability 2^-35 are invisible to sampling", "anchors": ["src/goldilocks.rs:ed448_sign", "src/goldilocks.rs:ed448_verify", "src/eddsa.rs:dsa_verify", "src/extended_point.rs:eddsa_like_decode", "src/bignumber.rs:dsa_like_deserialize"]}
{"id": "C06", "title": "Honest signatures verify whenever both encodings pass the decoder's range test", "statement": "If the decoder's range test on the 56 y-bytes accepts the derived public key and the R half of the signature (and neither hits the decoder's Z==0 false positive), then verification of an honest signature returns Ok(true).", "quantifier": "all keys, all messages, every XOF", "why_tests_cant": "universal statement over keys, messages and hash outputs; this is the exact positive part of C05", "anchors": ["src/goldilocks.rs:ed448_verify", "src/eddsa.rs:dsa_verify", "src/extended_point.rs:point_double_scalamul_non_secret", "src/extended_point.rs:mod_equal"]}
{"id": "C07", "title": "Verification computes the cofactored Ed448 equation", "statement": "When public key and R decode to curve points A and R, ed448_verify returns Ok(true) if 4[S]B = 4R + 4[c]A, where c is the challenge over R bytes, the re-encoded key and the message; and if it returns Ok(true) then either that equation holds or the final comparison hit a false positive in the one limb it does not look at.", "quantifier": "all public keys and signatures (any bytes of the right length) that decode to curve points, all messages, every XOF", "why_tests_cant": "quantifies over all adversarial inputs; soundness of a verifier is not testable by examples", "anchors": ["src/eddsa.rs:dsa_verify", "src/extended_point.rs:mod_equal", "src/extended_point.rs:point_double_scalamul_non_secret", "src/bignumber.rs:decaf_equal"]}
{"id": "C08", "title": "Verification never panics on signatures of at least 114 bytes", "statement": "ed448_verify and ed448_verify_with_error return a value (no panic, no arithmetic overflow trap, no out-of-bounds index), in debug and release builds alike, for every public key slice of any length, every message and every signature slice of length >= 114.", "quantifier": "all byte strings for the three arguments, signature length >= 114", "why_tests_cant": "adversarial input space; overflow in a 32-bit limb or a negative wNAF index would need a specific rare value", "anchors": ["src/goldilocks.rs:ed448_verify", "src/goldilocks.rs:ed448_verify_with_error", "src/eddsa.rs:dsa_verify", "src/extended_point.rs:recode_wnaf", "src/bignumber.rs:mul_w"]}
{"id": "C09", "title": "Error classification of ed448_verify", "statement": "Result is Err(InvalidSignatureError) iff the key is 57 zero bytes or the signature is 114 zero bytes; otherwise Err(InvalidPubkeyLengthError) iff key length != 57; otherwise Err(DecodePubkeyError) iff the key does not decode; otherwise a panic iff the signature is shorter than 114 bytes; otherwise Err(DecodeSignatureError) iff the first 57 signature bytes do not decode; InvalidSignatureLengthError is never returned.", "quantifier": "all byte strings for key, signature, message", "why_tests_cant": "all inputs; the claim includes which errors can never occur", "anchors": ["src/goldilocks.rs:ed448_verify", "src/eddsa.rs:dsa_verify", "src/errors.rs:LibgoldilockErrors"]}
{"id": "C10", "title": "Malformed signature length is reported as an error", "statement": "ed448_verify returns an error (and does not panic) when the signature slice has a length other than 114.", "quantifier": "all signature lengths", "why_tests_cant": "the tests only use the array type of length 114; an API taking &[u8] must be right for every length", "anchors": ["src/goldilocks.rs:ed448_verify", "src/eddsa.rs:dsa_verify"]}
{"id": "C11", "title": "Signatures are not malleable in S", "statement": "If ed448_verify accepts R||S then it accepts no R||S' with S' != S and S' = S mod q (RFC 8032 requires rejecting S >= q).", "quantifier": "all keys, messages, R and all 57-byte S, S'", "why_tests_cant": "needs reasoning about every S; a test would have to think of S+q", "anchors": ["src/eddsa.rs:dsa_verify", "src/scalar.rs:decode_long"]}
{"id": "C12", "title": "ed448_verify_with_error agrees with ed448_verify", "statement": "ed448_verify_with_error returns Ok(()) iff ed448_verify returns Ok(true), returns Err(InvalidSignatureError) when ed448_verify returns Ok(false), and the same error otherwise.", "quantifier": "all inputs", "why_tests_cant": "equality of two functions on all inputs", "anchors": ["src/goldilocks.rs:ed448_verify_with_error", "src/goldilocks.rs:ed448_verify"]}
{"id": "C13", "title": "Derived public keys can always be decoded", "statement": "The verifier accepts the encoding ed448_derive_public(k) as a curve point for every key k (no Err(DecodePubkeyError) for an honestly derived key).", "quantifier": "all 57-byte keys", "why_tests_cant": "the failure probability of the range test is about 2^-35 per key, out of reach for random tests", "anchors": ["src/extended_point.rs:eddsa_like_decode", "src/bignumber.rs:dsa_like_deserialize", "src/constants32.rs:MODULUS"]}
{"id": "C14", "title": "Public keys have one encoding", "statement": "Two different 57-byte strings that both decode never denote the same public key (RFC 8032: y must be < p, and the sign bit must be 0 when x = 0).", "quantifier": "all pairs of 57-byte strings", "why_tests_cant": "needs inputs in the 2^-224 fraction of non-canonical strings", "anchors": ["src/extended_point.rs:eddsa_like_decode", "src/bignumber.rs:dsa_like_deserialize"]}
{"id": "C15", "title": "Only points on the curve are accepted", "statement": "If the decoder accepts a 57-byte string then its y coordinate belongs to a point of the Ed448 curve.", "quantifier": "all 57-byte strings", "why_tests_cant": "the comparison used by the check skips one of 16 limbs; a wrong acceptance occurs on a 2^-420 fraction of inputs and can only be found by solving for it", "anchors": ["src/extended_point.rs:eddsa_like_decode", "src/extended_point.rs:is_on_curve", "src/bignumber.rs:decaf_equal"]}
{"id": "C16", "title": "Every canonical encoding of a curve point is accepted", "statement": "If y < p and (x, y) is on the curve, then the RFC encoding of (x, y) is decoded successfully.", "quantifier": "all curve points", "why_tests_cant": "about 2^446 points; the two known causes of rejection have probabilities 2^-35 and 2^-420", "anchors": ["src/extended_point.rs:eddsa_like_decode", "src/bignumber.rs:dsa_like_deserialize", "src/bignumber.rs:decaf_equal"]}
{"id": "C17", "title": "Decoder acceptance, exactly", "statement": "A 57-byte string decodes iff its byte 56 is 0x00 or 0x80, its range test passes, the curve-equation residue vanishes in its low 420 bits, and Z does not vanish in its low 420 bits; the residue is 0 exactly for curve points.", "quantifier": "all byte strings", "why_tests_cant": "an if-and-only-if over all inputs", "anchors": ["src/extended_point.rs:eddsa_like_decode", "src/extended_point.rs:is_on_curve", "src/bignumber.rs:isr", "src/bignumber.rs:decaf_equal"]}
{"id": "C18", "title": "Public key aliases by small-order points behave identically", "statement": "If A and A+T (T of order dividing 4) are both accepted as public keys, ed448_verify gives the same answer for both on every signature and message.", "quantifier": "all curve points A, all T with 4T = 0, all signatures and messages", "why_tests_cant": "universal over keys and signatures; depends on how the decoder multiplies by 1/4 and on hashing the re-encoded key", "anchors": ["src/eddsa.rs:dsa_verify", "src/extended_point.rs:eddsa_like_decode"]}
{"id": "C19", "title": "The identity public key makes every message forgeable", "statement": "A key whose public point is the identity should be refused by the verifier, i.e. no (R, S) known without a secret verifies for all messages under it.", "quantifier": "all messages; the public key 01 00..00", "why_tests_cant": "requires an adversarial key; tests only use random keys", "anchors": ["src/eddsa.rs:dsa_verify", "src/goldilocks.rs:ed448_verify"]}
{"id": "C20", "title": "Secret keys never yield the identity public key", "statement": "ed448_derive_public(k) is never the encoding of the neutral element.", "quantifier": "all 57-byte keys", "why_tests_cant": "exactly one clamped scalar (4q) is a counter-example among 2^445", "anchors": ["src/goldilocks.rs:ed448_derive_public", "src/eddsa.rs:clamp"]}
{"id": "C21", "title": "Field arithmetic is exact and overflow-free", "statement": "All field operations reached from the public API (add, sub, neg, multiply, square, multiply by a small constant, reduce, conditional select) compute the stated value mod p = 2^448-2^224-1 for every limb vector they can receive, and none of the non-wrapping operations can overflow.", "quantifier": "all limb vectors within the bounds the callers guarantee", "why_tests_cant": "limb-carry bugs show on a vanishing fraction of inputs; 2^448 values", "anchors": ["src/bignumber.rs:mul", "src/bignumber.rs:square", "src/bignumber.rs:add", "src/bignumber.rs:sub", "src/bignumber.rs:mul_w", "src/bignumber.rs:strong_reduce", "src/bignumber.rs:weak_reduce", "src/karatsuba_32.rs:karatsuba_mul", "src/karatsuba_square_32.rs:karatsuba_square"]}
{"id": "C22", "title": "Field inversion and inverse square root", "statement": "The inversion routine returns x^-1 mod p (0 for 0), the inverse square root routine r satisfies r^2 x = 1 for every nonzero square x, and r^2 x = -1 for every non-square.", "quantifier": "all field elements", "why_tests_cant": "exponentiation chain of 460 steps over a 448-bit field", "anchors": ["src/bignumber.rs:invert", "src/bignumber.rs:isr", "src/bignumber.rs:square_n"]}
{"id": "C23", "title": "Comparison of field elements", "statement": "The equality test used by the verifier and the decoder returns true iff the two elements are equal mod p.", "quantifier": "all pairs of field elements", "why_tests_cant": "it skips one limb; false positives have probability 2^-420", "anchors": ["src/bignumber.rs:decaf_equal"]}
{"id": "C24", "title": "Scalars are reduced correctly from any byte string", "statement": "decode_long returns the canonical representative of the little-endian value mod q for byte strings of every length (challenge, nonce, secret and S are all read this way).", "quantifier": "all byte strings of any length", "why_tests_cant": "unbounded lengths and a Montgomery loop with rare final corrections", "anchors": ["src/scalar.rs:decode_long", "src/scalar.rs:decode_short", "src/scalar.rs:decode", "src/scalar.rs:montgomery_multiply"]}
{"id": "C25", "title": "Scalar arithmetic is arithmetic mod q", "statement": "add, sub, mul, halve on reduced scalars give the reduced sum, difference, product and half mod q; encode gives the 57-byte little-endian form with last byte 0; nothing overflows.", "quantifier": "all pairs of reduced scalars", "why_tests_cant": "446-bit domain; carries out of the top word and the conditional subtraction have rare branches", "anchors": ["src/scalar.rs:add", "src/scalar.rs:sub", "src/scalar.rs:mul", "src/scalar.rs:halve", "src/scalar.rs:sub_extra", "src/scalar.rs:encode"]}
{"id": "C26", "title": "Signatures are canonical", "statement": "In every signature produced, the S half is the little-endian encoding of an integer < q with byte 113 = 0, and the R half has y < p and byte 56 in {0x00, 0x80}; output length is always 114.", "quantifier": "all keys and messages", "why_tests_cant": "all keys and messages; needs strong reduction to be right at p and above", "anchors": ["src/goldilocks.rs:ed448_sign", "src/scalar.rs:encode", "src/bignumber.rs:dsa_like_serialize", "src/bignumber.rs:strong_reduce"]}
{"id": "C27", "title": "Fixed-base multiplication", "statement": "The comb multiplication returns the point [s]B' (image of the base point on the internal curve) for every scalar, including 0 and q-1.", "quantifier": "all scalars < q", "why_tests_cant": "the 80-entry table and 18*5 signed digits cannot be exercised exhaustively; one wrong limb in one table entry is hit by 1/16 of the digits only", "anchors": ["src/extended_point.rs:precomputed_scalar_mul", "src/decaf_combs_32.rs:DECAF_PRECOMP_TABLE"]}
{"id": "C28", "title": "Variable-base and double-base multiplication", "statement": "point_scalar_mul(s) returns [s]P and point_double_scalamul_non_secret(s, t) returns [s]B' + [t]P for all scalars, including zero scalars and results equal to the identity.", "quantifier": "all scalars < q, all points in the image of the Ed448 curve", "why_tests_cant": "window and wNAF recodings have 2^446 digit strings; leading-digit and equal-power branches are rare", "anchors": ["src/extended_point.rs:point_scalar_mul", "src/extended_point.rs:point_double_scalamul_non_secret", "src/extended_point.rs:prepare_fixed_window", "src/extended_point.rs:decaf_prepare_wnaf_table"]}
{"id": "C29", "title": "wNAF recoding", "statement": "recode_wnaf writes at most the table size of entries, all digits odd and bounded by the table, powers strictly decreasing, leading digit positive, and sum addend*2^power = s.", "quantifier": "all scalars < q, both window sizes", "why_tests_cant": "digit counts near the limit and carries across 16-bit chunks are rare", "anchors": ["src/extended_point.rs:recode_wnaf"]}
{"id": "C30", "title": "Point formulas are complete on the points that occur", "statement": "Doubling and (re-)addition formulas return the group sum for every pair of points that the API can produce, with no exceptional case (equal, opposite, identity, small order).", "quantifier": "all pairs of points in the image of the isogeny", "why_tests_cant": "exceptional pairs are a negligible fraction; the internal twisted curve with a=-1, d' square is not complete in general", "anchors": ["src/extended_point.rs:double_internal", "src/extended_point.rs:add_niels_to_extended", "src/extended_point.rs:sub_niels_from_extended_point", "src/extended_point.rs:to_projected_niels"]}
{"id": "C31", "title": "Point encoding", "statement": "eddsa_like_encode of the internal representation of a point P gives the RFC 57-byte encoding of P (times 4, through the isogeny) and does not depend on the projective representative.", "quantifier": "all points and all projective representatives with bounded limbs", "why_tests_cant": "infinitely many representatives of each of 2^446 points", "anchors": ["src/extended_point.rs:eddsa_like_encode", "src/bignumber.rs:dsa_like_serialize"]}
{"id": "C32", "title": "Encode after decode", "statement": "If a canonical encoding of a point of the prime-order subgroup is accepted by the decoder, re-encoding the decoded point gives back the same 57 bytes.", "quantifier": "all points of the prime-order subgroup", "why_tests_cant": "the decoder negates x, applies an isogeny and multiplies by 1/4; the encoder applies the dual isogeny", "anchors": ["src/extended_point.rs:eddsa_like_decode", "src/extended_point.rs:eddsa_like_encode"]}
{"id": "C33", "title": "Clamped bits of expanded-secret keys do not matter", "statement": "Two keys with the top bit set that agree after clamping (bits 0,1 of byte 0, bit 7 of byte 55, bits 0..6 of byte 56 ignored) have the same public key and give the same signature on every message.", "quantifier": "all such pairs of keys, all messages", "why_tests_cant": "2^10 aliases for each of 2^445 keys", "anchors": ["src/eddsa.rs:clamp", "src/goldilocks.rs:ed448_derive_public", "src/goldilocks.rs:ed448_sign"]}
{"id": "C34", "title": "private_to_secret is consistent with derivation", "statement": "ed448_derive_public(private_to_secret(k)) = private_to_public(k), and private_to_secret always returns a key with the top bit set.", "quantifier": "all 57-byte keys", "why_tests_cant": "quantifies over all keys and hash outputs", "anchors": ["src/goldilocks.rs:private_to_secret", "src/goldilocks.rs:private_to_public", "src/goldilocks.rs:ed448_derive_public"]}
{"id": "C35", "title": "Hex round trip of keys", "statement": "from_str(hex(k)) = k for SecretKey, VerifyingKey and (key material of) SigningKey, for lower- and upper-case hex; from_str panics exactly when the string is not 114 hex digits.", "quantifier": "all 57-byte keys, all strings", "why_tests_cant": "all strings; partial function", "anchors": ["src/lib.rs:from_str", "src/goldilocks.rs:hex_to_private_key"]}
{"id": "C36", "title": "Serde round trip", "statement": "Deserializing what Serialize wrote gives back the same key, in a human-readable format; in a non-human-readable format it always fails.", "quantifier": "all keys of the three types", "why_tests_cant": "tests check one constant key per type and only JSON", "anchors": ["src/lib.rs:serialize", "src/lib.rs:deserialize"]}
{"id": "C37", "title": "Deserialization of untrusted text does not panic", "statement": "Deserialize of a key from an arbitrary human-readable string returns Ok or Err.", "quantifier": "all strings", "why_tests_cant": "all strings", "anchors": ["src/lib.rs:deserialize", "src/goldilocks.rs:hex_to_private_key"]}
{"id": "C38", "title": "SigningKey constructors agree and keep the key pair consistent", "statement": "from_bytes, from_slice, From<SecretKey>, random and from_str all build a SigningKey whose verifying_key is ed448_derive_public of its secret key and whose to_bytes is the given key; wrong lengths give Err(InvalidPrivKeyLengthErrro(len)) from from_bytes and a panic from from_slice, SecretKey::from_bytes and VerifyingKey::from_bytes.", "quantifier": "all byte slices of any length, every RNG output", "why_tests_cant": "all inputs and lengths", "anchors": ["src/lib.rs:SigningKey::from_bytes", "src/lib.rs:SigningKey::from_slice", "src/lib.rs:SigningKey::random", "src/lib.rs:From<SecretKey>"]}
{"id": "C39", "title": "sign_prehash output layout", "statement": "sign_prehash returns Ok with 171 bytes: the ed448_sign signature followed by the verifying key; bytes 0..114 and 114..171 verify together under C06's condition.", "quantifier": "all signing keys, all prehash byte strings", "why_tests_cant": "all keys and messages", "anchors": ["src/lib.rs:sign_prehash", "src/lib.rs:Signature::as_slice"]}
{"id": "C40", "title": "Different nonces give different R", "statement": "For a fixed key, if the nonce hash outputs of two messages differ mod q then the two R halves differ (the nonce-to-R map is injective).", "quantifier": "all keys, all pairs of messages", "why_tests_cant": "injectivity over 2^446 scalars", "anchors": ["src/goldilocks.rs:sign_by_private", "src/goldilocks.rs:sign_with_secret_and_nonce"]}
{"id": "C41", "title": "Secret-independent timing", "statement": "Signing takes the same branches and touches the same memory addresses whatever the secret key is (the usual meaning of secret-independent timing; wall-clock time itself is not modelled).", "quantifier": "all pairs of keys of the same kind, all pairs of messages of the same length", "why_tests_cant": "tests see outputs, not branches and addresses; a claim about all pairs of keys", "anchors": ["src/decaf_combs_32.rs:lookup", "src/extended_point.rs:precomputed_scalar_mul", "src/goldilocks.rs:ed448_sign"]}
{"id": "C42", "title": "Quality of generated keys", "statement": "If the random number generator delivers uniformly distributed bytes, ed448_generate_key and SigningKey::random return uniformly distributed 57-byte keys.", "quantifier": "all 256^57 generator outputs, all keys", "why_tests_cant": "a statement about a distribution over 256^57 outcomes", "anchors": ["src/goldilocks.rs:ed448_generate_key", "src/lib.rs:SigningKey::random"]}
{"id": "C43", "title": "Agreement with RFC 8032 verification for keys in the prime-order subgroup", "statement": "For a public key whose point lies in the group generated by B, ed448_verify returns Ok(true) on every signature that RFC 8032 section 5.2.7 calls valid (when both encodings pass the decoder's extra tests), and a 114-byte signature with S < q and canonical R that it accepts is valid by RFC 8032 unless the final comparison hit a false positive in the limb it does not look at.", "quantifier": "all messages, all signatures, all public keys in the prime-order subgroup, every XOF", "why_tests_cant": "a statement over all keys, signatures and messages about equality with an independent specification", "anchors": ["src/goldilocks.rs:ed448_verify", "src/eddsa.rs:dsa_verify"]}
{"id": "C44", "title": "Hex helpers for message hashes and signatures", "statement": "hex_to_message_hash and hex_to_signature return the bytes spelled by the text exactly when it consists of 64 (228) hex digits of either case, and panic on every other text.", "quantifier": "all strings", "why_tests_cant": "all strings; partial function", "anchors": ["src/goldilocks.rs:hex_to_message_hash", "src/goldilocks.rs:hex_to_signature"]}
{"id": "C45", "title": "Generated keys are RFC 8032 keys", "statement": "The public key derived from a key that ed448_generate_key returned is the RFC 8032 public key of these 57 bytes.", "quantifier": "all generator outputs", "why_tests_cant": "depends on the one bit that selects between two interpretations of a key; a round trip test passes with either", "anchors": ["src/goldilocks.rs:ed448_generate_key", "src/goldilocks.rs:ed448_derive_public"]}
{"id": "C46", "title": "Deserialization of field elements accepts exactly the reduced values", "statement": "must_deserialize returns the value of its 56 bytes when it is below p, and panics otherwise.", "quantifier": "all 56-byte strings", "why_tests_cant": "tests use about twenty constants, none near a boundary", "anchors": ["src/bignumber.rs:deserialize_return_mask", "src/bignumber.rs:constant_time_greater_or_equal_p", "src/bignumber.rs:must_deserialize"]}
{"id": "C47", "title": "is_on_curve decides the curve equations", "statement": "is_on_curve is true exactly for coordinates with Z <> 0, X Y = Z T and Y^2 - X^2 = Z^2 + (d-1) T^2.", "quantifier": "all coordinates within the limb bounds", "why_tests_cant": "the exceptional cases have density 2^-420", "anchors": ["src/extended_point.rs:is_on_curve", "src/bignumber.rs:decaf_equal"]}
{"id": "C48", "title": "For given public key, R and message, S is unique modulo q", "statement": "If two signatures with the same R are accepted for one message and one public key, their S agree modulo q, unless the final comparison erred for one of them.", "quantifier": "all public keys and R that denote points, all S, all messages, every XOF", "why_tests_cant": "a statement over all pairs of signatures; needs the order of B", "anchors": ["src/goldilocks.rs:ed448_verify", "src/eddsa.rs:dsa_verify"]}
{"id": "C49", "title": "An accepted signature binds the message", "statement": "If one signature is accepted for two messages under a public key with a component in the group of B, the two challenge hashes agree modulo q, unless the final comparison erred; in other words it takes a hash collision modulo q.", "quantifier": "all public keys and R that denote points, all signatures, all pairs of messages, every XOF", "why_tests_cant": "a statement over all pairs of messages; needs that q is prime", "anchors": ["src/goldilocks.rs:ed448_verify", "src/eddsa.rs:dsa_verify"]}
{"id": "C50", "title": "Forgery under every public key of small order", "statement": "Under a public key whose point has no component in the group of B no signature can be made without a secret.", "quantifier": "all such public keys that the decoder accepts, all messages", "why_tests_cant": "requires adversarial keys", "anchors": ["src/goldilocks.rs:ed448_verify", "src/eddsa.rs:dsa_verify"]}
{"id": "C51", "title": "The expanded form of a seed key signs for the same public key", "statement": "For a seed key k, private_to_secret(k) is an expanded key with the same secret scalar and the same public key, and its signatures are accepted under that public key (when both encodings are decodable).", "quantifier": "all seed keys, all messages, every XOF", "why_tests_cant": "quantifies over all keys, hash outputs and messages", "anchors": ["src/goldilocks.rs:private_to_secret", "src/goldilocks.rs:ed448_sign", "src/goldilocks.rs:ed448_verify"]}
{"id": "C52", "title": "Two signatures with the same R reveal the secret scalar", "statement": "If two signatures of one key share R, then (k - k') s = S - S' modulo q; if the challenges differ modulo q this determines the secret scalar modulo q.", "quantifier": "all keys, all pairs of messages, every XOF", "why_tests_cant": "an event that honest hashing never shows in a test", "anchors": ["src/goldilocks.rs:sign_by_private", "src/goldilocks.rs:sign_with_secret_and_nonce"]}
{"id": "C53", "title": "Scalar building blocks", "statement": "montgomery_multiply(x, y) is x y 2^-448 modulo q for every x of 14 words and reduced y; mul reduces an unreduced left operand; decode reads 56 bytes modulo q and panics exactly on shorter input.", "quantifier": "all 14-word scalars, all byte strings", "why_tests_cant": "all values; tests use a few constants", "anchors": ["src/scalar.rs:montgomery_multiply", "src/scalar.rs:mul", "src/scalar.rs:decode"]}
{"id": "C54", "title": "Accessors of keys and signatures", "statement": "Two signing keys built by the constructors are equal exactly when their secret keys are; secret_key, verifying_key, to_bytes, as_bytes and as_slice return what the constructors stored, so that a key can be rebuilt from them and a Signature holds ed448_sign's 114 bytes followed by the 57 bytes of the public key.", "quantifier": "all 57-byte keys, all messages, every XOF", "why_tests_cant": "quantifies over all keys and messages", "anchors": ["src/lib.rs:SigningKey", "src/lib.rs:SecretKey", "src/lib.rs:VerifyingKey", "src/lib.rs:Signature"]}
{"id": "C55", "title": "Texts of errors", "statement": "The Display text of each error is the declared one (with the number of bytes in decimal), and different errors have different Display texts and different Debug texts.", "quantifier": "all errors, all usize values", "why_tests_cant": "all 2^64 lengths", "anchors": ["src/errors.rs:LibgoldilockErrors"]}
{"id": "C56", "title": "Every error variant can occur", "statement": "Every variant of LibgoldilockErrors is returned by some call of a public function.", "quantifier": "all variants; the calls of ed448_verify, ed448_verify_with_error, SigningKey::from_bytes and sign_prehash", "why_tests_cant": "that no input leads to a variant is a statement about all inputs", "anchors": ["src/errors.rs:LibgoldilockErrors", "src/goldilocks.rs:ed448_verify", "src/lib.rs:from_bytes"]}
{"id": "C57", "title": "Debug output does not reveal secret keys", "statement": "The Debug text of a SecretKey or SigningKey does not reveal the secret key.", "quantifier": "all secret keys", "why_tests_cant": "a statement about what can be computed from a text", "anchors": ["src/lib.rs:SecretKey", "src/lib.rs:SigningKey"]}
{"id": "C58", "title": "Public keys are validated on construction", "statement": "VerifyingKey::from_bytes and from_str refuse byte strings that the decoder refuses.", "quantifier": "all 57-byte strings", "why_tests_cant": "requires invalid keys", "anchors": ["src/lib.rs:VerifyingKey"]}
{"id": "C59", "title": "Small constructors", "statement": "scalar::copy returns its argument, scalar::set(w) is the scalar w, and the new functions of points and table entries give all coordinates zero.", "quantifier": "all scalars and words", "why_tests_cant": "all values", "anchors": ["src/scalar.rs:copy", "src/scalar.rs:set", "src/extended_point.rs:new"]}
{"id": "C60", "title": "Refused y coordinates are negligibly rare", "statement": "At most one in 2^100 of the y coordinates below p is refused by the range test of the decoder.", "quantifier": "all y below p", "why_tests_cant": "a count over 2^448 values; a test would need 2^35 random points to see one", "anchors": ["src/bignumber.rs:dsa_like_deserialize", "src/extended_point.rs:eddsa_like_decode"]}
{"id": "C61", "title": "Constants", "statement": "The constants of constants32.rs are what they are used for: SCALAR_Q is q, SCALAR_R2 is 2^896 mod q, MONTGOMERY_FACTOR is -1/q mod 2^32, MODULUS holds the limbs of p, EDWARDS_D is d, and the sizes fit q and p.", "quantifier": "closed statement", "why_tests_cant": "tests see only consequences of the constants; MODULUS matters for one y in 2^35", "anchors": ["src/constants32.rs:MODULUS", "src/constants32.rs:SCALAR_R2", "src/constants32.rs:MONTGOMERY_FACTOR"]}
{"id": "C62", "title": "Signatures are valid for every RFC 8032 verifier", "statement": "A signature made by ed448_sign is valid by RFC 8032 section 5.2.7 under the derived public key.", "quantifier": "all keys of both kinds, all messages, every XOF", "why_tests_cant": "interoperability with all verifiers, for all keys and messages", "anchors": ["src/goldilocks.rs:ed448_sign", "src/goldilocks.rs:ed448_derive_public"]}
{"id": "C63", "title": "Verification is RFC 8032 verification for every public key", "statement": "For canonical encodings of points and S < q, a signature that ed448_verify accepts is valid by RFC 8032 section 5.2.7, whatever public key it is given.", "quantifier": "all canonical public keys, all signatures, all messages", "why_tests_cant": "needs public keys that no honest key generation produces", "anchors": ["src/goldilocks.rs:ed448_verify", "src/eddsa.rs:dsa_verify"]}
{"id": "C64", "title": "The public key determines the secret scalar", "statement": "Two keys have the same public key exactly when their clamped secret scalars are equal as integers.", "quantifier": "all pairs of keys of both kinds, every XOF", "why_tests_cant": "injectivity over 2^445 scalars; needs the order of B", "anchors": ["src/goldilocks.rs:ed448_derive_public", "src/goldilocks.rs:secret_to_public"]}
{"id": "C65", "title": "Building blocks of keys and signatures", "statement": "clamp panics exactly on fewer than 57 bytes, and otherwise replaces the first 57 by the secret scalar; private_to_secret, point_by_secret, secret_to_public, private_to_public, sign_by_private and sign_with_secret_and_nonce return what RFC 8032 computes from the same data (also for seeds of any length and any nonce prefix); ed448_verify is dsa_verify but for the all-zero inputs, which it refuses.", "quantifier": "all byte strings, all nonce prefixes, all messages, every XOF", "why_tests_cant": "all inputs of functions that are public but called with 57-byte arrays only in tests", "anchors": ["src/eddsa.rs:clamp", "src/goldilocks.rs:private_to_secret", "src/goldilocks.rs:sign_with_secret_and_nonce", "src/goldilocks.rs:sign_by_private", "src/eddsa.rs:dsa_verify"]}
{"id": "C66", "title": "sign_prehash is Ed448ph", "statement": "sign_prehash of a 64-byte prehash returns (in its first 114 bytes) the Ed448ph signature of RFC 8032, with the flag byte 1 in the domain prefix.", "quantifier": "all seed keys, all 64-byte prehashes", "why_tests_cant": "no test compares with an Ed448ph implementation", "anchors": ["src/lib.rs:sign_prehash", "src/eddsa.rs:hash_with_dom"]}
{"id": "C67", "title": "Special soundness", "statement": "From two accepted signatures with the same R and different challenges (for one or two hash functions) the discrete logarithm of the component of the public key in the group of B follows by solving one linear equation modulo q; for a derived key it is the secret scalar modulo q.", "quantifier": "all public keys, all pairs of signatures, all messages, all pairs of XOFs", "why_tests_cant": "needs two different hash functions or a collision of nonces; universally quantified over transcripts", "anchors": ["src/goldilocks.rs:ed448_verify", "src/eddsa.rs:dsa_verify"]}
{"id": "C68", "title": "Simulation by programming the hash", "statement": "For every decodable public key, every S and every challenge k there is an accepted signature made without the secret, for the hash function changed at one input only.", "quantifier": "all decodable public keys, all S, all k, all messages, every XOF", "why_tests_cant": "needs a hash function that differs from SHAKE256 at one input", "anchors": ["src/goldilocks.rs:ed448_verify", "src/eddsa.rs:dsa_verify"]}
{"id": "C69", "title": "Honest signatures satisfy the equation without cofactor", "statement": "Signatures of ed448_sign satisfy [S]B = R + [k]A (not only 4 times it), with A and R in the group of B, so that verifiers with and without the cofactor accept them.", "quantifier": "all keys of both kinds, all messages, every XOF", "why_tests_cant": "interoperability with all verifiers, for all keys and messages", "anchors": ["src/goldilocks.rs:ed448_sign", "src/goldilocks.rs:ed448_derive_public"]}
{"id": "C70", "title": "Accepted signatures satisfy the equation without cofactor", "statement": "A signature that is valid by RFC 8032 and accepted by ed448_verify satisfies [S]B = R + [k]A, so that verifiers which omit the cofactor accept it too.", "quantifier": "all public keys in the group of B, all signatures, all messages", "why_tests_cant": "needs R with a component of order 2, which no signer produces", "anchors": ["src/goldilocks.rs:ed448_verify", "src/eddsa.rs:dsa_verify"]}
{"id": "C71", "title": "A signature is accepted under one public key only", "statement": "No signature of a message is accepted under two different public keys.", "quantifier": "all pairs of public keys, all signatures, all messages", "why_tests_cant": "needs public keys with a component of order 2", "anchors": ["src/goldilocks.rs:ed448_verify", "src/eddsa.rs:dsa_verify"]}
{"id": "C72", "title": "No public function panics", "statement": "No function of the public interface panics or overflows, whatever bytes or text it is given.", "quantifier": "all byte strings and texts, every XOF", "why_tests_cant": "all inputs, of all functions", "anchors": ["src/goldilocks.rs:ed448_verify", "src/goldilocks.rs:hex_to_private_key", "src/lib.rs:from_str", "src/lib.rs:from_bytes", "src/lib.rs:from_slice", "src/lib.rs:deserialize"]}
{"id": "C73", "title": "Every point of the group of B is somebody's public key", "statement": "Every point of the group generated by B other than the neutral element is the public key of some 57-byte key.", "quantifier": "all points of the group of B, all keys of both kinds, every XOF", "why_tests_cant": "a statement about all 2^446 points and all keys", "anchors": ["src/goldilocks.rs:ed448_derive_public", "src/goldilocks.rs:secret_to_public", "src/eddsa.rs:clamp"]}
{"id": "C74", "title": "One secret scalar behind every public key", "statement": "The points of the curve are the q*4 sums i B + j (1,0) with 0 <= i < q, 0 <= j < 4, each once; to every public key that the decoder accepts for a point of the curve there is exactly one x below q such that the crate encodes the decoded point as [x]B.", "quantifier": "all points of the curve, all byte strings", "why_tests_cant": "needs the order and the structure of a group of 2^448 points", "anchors": ["src/extended_point.rs:eddsa_like_decode", "src/extended_point.rs:eddsa_like_encode"]}
{"id": "C75", "title": "Public keys of small order are refused", "statement": "A public key which stands for a point of order 1, 2 or 4 is refused.", "quantifier": "all byte strings, all signatures, all messages, every XOF", "why_tests_cant": "the ten strings of small order include non-canonical ones that no test vector contains", "anchors": ["src/extended_point.rs:eddsa_like_decode", "src/goldilocks.rs:ed448_verify"]}
{"id": "C76", "title": "What is hashed", "statement": "Deriving a public key hashes the seed and nothing else (an expanded key: nothing); signing hashes the seed, the prefix with the message, and R, the public key and the message, both after the domain prefix; verification hashes R, the encoding of the component of A in the group of B and the message. The results do not depend on the hash function at any other input.", "quantifier": "all keys of both kinds, all messages, all public keys that stand for a point, all signatures, all pairs of XOFs", "why_tests_cant": "quantifies over pairs of hash functions", "anchors": ["src/goldilocks.rs:ed448_sign", "src/goldilocks.rs:ed448_derive_public", "src/eddsa.rs:dsa_verify", "src/eddsa.rs:hash_with_dom"]}
{"id": "C77", "title": "Verification is one linear equation between discrete logarithms", "statement": "With x and r the discrete logarithms of the components of A and R in the group of B, a signature is accepted if S = r + k x modulo q, and conversely up to the false positives of the final comparison.", "quantifier": "all decodable public keys and R that stand for points, all S, all messages, every XOF", "why_tests_cant": "discrete logarithms cannot be computed", "anchors": ["src/goldilocks.rs:ed448_verify", "src/eddsa.rs:dsa_verify"]}
{"id": "C78", "title": "Signatures with R of small order are refused", "statement": "A signature whose R stands for a point of order 1, 2 or 4 (in any of its encodings) is refused.", "quantifier": "all derived public keys, all R of small order, all messages, every XOF", "why_tests_cant": "needs signatures made with the secret scalar by another program than ed448_sign", "anchors": ["src/goldilocks.rs:ed448_verify", "src/eddsa.rs:dsa_verify"]}
{"id": "C79", "title": "The inputs of the hash are unambiguous", "statement": "The strings hashed for one signature are different from each other; the strings hashed determine the message, the nonce prefix and the public key (signing), and the message, R and the component of the public key in the group of B (verification).", "quantifier": "all keys of both kinds, all messages, all signatures, every XOF", "why_tests_cant": "injectivity over all messages of all lengths", "anchors": ["src/goldilocks.rs:ed448_sign", "src/eddsa.rs:hash_with_dom", "src/eddsa.rs:dsa_verify"]}
{"id": "C80", "title": "The work done is bounded", "statement": "Whatever public key and signature an attacker sends, verification carries out at most 2231 point doublings, 576 point additions and one call of the hash over the message; inputs refused for the public key cost none of these. Signing and derivation carry out exactly the same number for all keys (34 and 178, 17 and 89).", "quantifier": "all public keys, all signatures, all keys of both kinds, all messages, every XOF", "why_tests_cant": "the worst case over all signatures cannot be found by running examples", "anchors": ["src/goldilocks.rs:ed448_verify", "src/eddsa.rs:dsa_verify", "src/extended_point.rs:point_double_scalamul_non_secret", "src/extended_point.rs:recode_wnaf", "src/extended_point.rs:point_scalar_mul", "src/extended_point.rs:precomputed_scalar_mul"]}
{"id": "C81", "title": "Nonces, challenges and public keys are nearly uniform", "statement": "If the 114 bytes that the hash returns are uniform, the nonce and the challenge made from them are within 2^-466 of uniform modulo q, for every set of scalars; every scalar is hit by floor(2^912/q) or one more of the strings. Every public key comes from exactly 2048 of the 57-byte digests of seeds.", "quantifier": "all scalars, all sets of scalars, all public keys, counted over all strings of 114 and 57 bytes", "why_tests_cant": "a bias of 2^-466 cannot be measured", "anchors": ["src/scalar.rs:decode_long", "src/eddsa.rs:hash_with_dom", "src/eddsa.rs:clamp", "src/goldilocks.rs:secret_to_public"]}
{"id": "C82", "title": "Release builds and debug builds agree", "statement": "A build without overflow checks, in which + - * wrap instead of trapping, returns the same results, the same errors and the same panics as a build with them, for every public function.", "quantifier": "all public keys, signatures, messages, keys of both kinds, texts and serde inputs, every XOF", "why_tests_cant": "tests run in one build; an overflow that shows in the other may need one input in 2^448", "anchors": ["src/goldilocks.rs:ed448_verify", "src/goldilocks.rs:ed448_sign", "src/goldilocks.rs:ed448_derive_public", "src/bignumber.rs:bias", "src/scalar.rs:sub_extra", "src/extended_point.rs:recode_wnaf", "src/lib.rs:sign_prehash"]}
{"id": "C83", "title": "32-bit and 64-bit targets agree", "statement": "On a target whose usize has 32 bits every public function returns the same results, the same errors and the same panics as on a target with 64 bits: no usize subtraction and no cast to usize depends on the width.", "quantifier": "all public keys, signatures, messages, keys of both kinds, texts and serde inputs, every XOF", "why_tests_cant": "tests run on one target; a cast that loses bits may need one scalar in 2^446", "anchors": ["src/extended_point.rs:recode_wnaf", "src/extended_point.rs:point_double_scalamul_non_secret", "src/bignumber.rs:dsa_like_deserialize", "src/bignumber.rs:dsa_like_serialize", "src/bignumber.rs:square_n", "src/scalar.rs:decode_long", "src/goldilocks.rs:ed448_verify"]}
{"id": "C84", "title": "Forging without signatures is as hard as the discrete logarithm", "statement": "If the hash answers at random, a forger that asks it n times and then has a signature accepted by verify can be run twice, with the answers renewed from the question for its challenge on, so that the two signatures give the discrete logarithm of the public key: (wins)^2 <= (n+1) (revealing pairs + wins N^n (N/q + 1)) with N = 256^114; for a derived public key the number revealed is its secret scalar.", "quantifier": "all public keys that denote a curve point, all forgers, all numbers of questions, all answers", "why_tests_cant": "a statement about all forgers and all hash functions; counting over 256^(114(n+1)) cases", "anchors": ["src/goldilocks.rs:ed448_verify", "src/eddsa.rs:dsa_verify", "src/eddsa.rs:hash_with_dom"]}
{"id": "C85", "title": "Signatures do not help a forger", "statement": "If the hash answers at random and the seed is random, a forger that is given the public key, asks the hash and the signer n times in all, and then has a signature accepted whose R was not given out by the signer for the same message (so a new message, or a new R for a signed one), wins at most about as often as when the signatures are made from the public key alone: the first probability is at most the second times (L q/N)^(n+1), a factor within 2^-465 per question of 1, and n^2 L/N (L q/N)^n + (n+1) (2 256^-57 + 256^-57), with N = 256^114 and L = floor(N/q) + 1. The simulated game can be run twice as in C84, and the two forgeries give the secret scalar. For an R given out with the message, S is the one given out modulo q.", "quantifier": "all forgers, all numbers of questions of both kinds, all seeds, all answers of the hash, counted", "why_tests_cant": "a statement about all forgers, counted over 256^(57 + 114 (2n + 3)) cases", "anchors": ["src/goldilocks.rs:ed448_sign", "src/goldilocks.rs:ed448_derive_public", "src/goldilocks.rs:ed448_verify", "src/goldilocks.rs:sign_by_private", "src/eddsa.rs:hash_with_dom"]}
{"id": "C86", "title": "How often an honest signature is refused", "statement": "If the hash answers at random, then for every seed and every message the public key is derived, the message signed and the signature accepted by verify, except for at most one in 2^30 of the answers for the seed and for the nonce; the same for a random key in expanded form. At most 2 * 2113536 * 2^392 + 2^32 of the q multiples of the base point are refused by the decoder.", "quantifier": "all seeds, all messages, all other answers of the hash, counted over all 256^228 pairs of answers", "why_tests_cant": "a failure of one in 2^30 is not seen by tests, nor its absence shown by them", "anchors": ["src/goldilocks.rs:ed448_derive_public", "src/goldilocks.rs:ed448_sign", "src/goldilocks.rs:ed448_verify", "src/extended_point.rs:eddsa_like_decode", "src/bignumber.rs:dsa_like_deserialize", "src/eddsa.rs:dsa_verify"]}
{"id": "C87", "title": "Signatures by an expanded key do not help a forger", "statement": "If the hash answers at random, then for every key in expanded form (the nonce is hashed from the secret scalar itself) a forger that asks the hash and the signer n times in all and has a signature accepted whose R was not given out for the same message wins at most about as often as it wins, or writes the secret scalar into a question for the hash, when the signatures are made from the public key alone. A question with the secret scalar gives it away, and the simulated game run twice gives it as in C84.", "quantifier": "all forgers, all numbers of questions of both kinds, every key in expanded form, all answers of the hash, counted", "why_tests_cant": "a statement about all forgers, counted over 256^(228 (n + 1)) cases for each key", "anchors": ["src/goldilocks.rs:ed448_sign", "src/goldilocks.rs:ed448_derive_public", "src/goldilocks.rs:ed448_verify", "src/goldilocks.rs:sign_with_secret_and_nonce", "src/eddsa.rs:hash_with_dom"]}
{"id": "C88", "title": "Nonces do not repeat", "statement": "If the hash answers at random, then for every key of either kind and every n different messages the halves R of the n signatures are different, except for at most n (n - 1) / 2 * L / N of the answers, with N = 256^114 and L = floor(N/q) + 1 (about n^2 / 2^447).", "quantifier": "all keys of both kinds, all numbers and lists of different messages, all other answers of the hash, counted over all 256^(114 n) answers", "why_tests_cant": "a repeated nonce gives the key away; a rate of 2^-446 per pair is out of reach of tests", "anchors": ["src/goldilocks.rs:ed448_sign", "src/goldilocks.rs:sign_by_private", "src/goldilocks.rs:sign_with_secret_and_nonce", "src/eddsa.rs:hash_with_dom"]}
{"id": "C89", "title": "Generated keys do not collide", "statement": "If the generator and the hash answer at random, n keys made by SigningKey::random have n different verifying keys, except for at most n (n - 1) (2^11 + 1) / 2^457 of the answers.", "quantifier": "all numbers of keys, all other answers of the hash, counted over all (256^57 * 256^114)^n answers", "why_tests_cant": "a rate of 2^-446 per pair of keys is out of reach of tests", "anchors": ["src/lib.rs:random", "src/goldilocks.rs:ed448_derive_public", "src/goldilocks.rs:secret_to_public", "src/eddsa.rs:clamp"]}
{"id": "C90", "title": "The table of odd multiples", "statement": "decaf_prepare_wnaf_table writes the odd multiples P, 3P, 5P, ... into the first 2^table_size entries of the table (or into all of it if it is shorter), leaves the other entries alone, and leaves the point as the last multiple written; it panics for an empty table, for a table of one entry when table_size is not 0, and for table_size >= 64.", "quantifier": "all points in the image of the Ed448 curve, all tables, all table sizes", "why_tests_cant": "only the size 3 is called; the other branches are not run by tests", "anchors": ["src/extended_point.rs:decaf_prepare_wnaf_table"]}
{"id": "C91", "title": "A signature discloses nothing but the public key", "statement": "If the hash answers at random for the nonce and the challenge of a message, the signature and its challenge are distributed within 2^-466 as pairs made from the public key alone: choose S below q and the challenge k at random and take R = [S]B - [k]A.", "quantifier": "all keys of both kinds, all messages, all sets of signatures with challenges, all other answers of the hash, counted over all 256^228 answers", "why_tests_cant": "a difference of 2^-466 between two distributions cannot be seen in samples", "anchors": ["src/goldilocks.rs:ed448_sign", "src/goldilocks.rs:sign_by_private", "src/goldilocks.rs:sign_with_secret_and_nonce", "src/eddsa.rs:hash_with_dom"]}
{"id": "C92", "title": "Signing does not use the stored public key", "statement": "The first 114 bytes that sign_prehash returns are ed448_sign of the secret key and the prehash, whatever verifying key is stored beside the secret key; the stored key is only appended. So no pair of signatures with one R and two public keys, which would give the secret away, can be obtained through it.", "quantifier": "all secret keys, all stored verifying keys, all prehash byte strings, every XOF", "why_tests_cant": "tests only use matching pairs of keys", "anchors": ["src/lib.rs:sign_prehash", "src/goldilocks.rs:ed448_sign"]}
{"id": "C93", "title": "What the table addresses give away", "statement": "Whoever sees which entries of the fixed-base table are read while signing or deriving the public key is left with at most 2^90 candidates for the private scalar modulo q, and finds it from the public key by two lists of 2^45 numbers computed from the addresses: some u of the first and v of the second satisfy [8u]B + [8v - 4 (2^450 - 1)]B = A, and every such pair gives the scalar. (The crate reads the table at secret addresses, C41.)", "quantifier": "all keys of both kinds, all messages, every XOF", "why_tests_cant": "counts scalars and ranges over all keys; which secrets remain possible is invisible to a test", "anchors": ["src/extended_point.rs:precomputed_scalar_mul", "src/goldilocks.rs:ed448_sign", "src/goldilocks.rs:ed448_derive_public"]}
{"id": "C94", "title": "Rate of forgeries against rate of discrete logarithms", "statement": "If the hash answers at random, let a forger ask fewer than 2^t questions (to the hash and to the signer), and let k + 2t <= 444. If two runs of it against a simulator that knows only the public key give the private scalar in at most one of 2^(2k+t) cases, then it forges in at most 6 of 2^k cases, counted over all seed keys. For a key in expanded form the same holds with 9 of 2^k, if moreover its questions show the scalar in at most one of 2^k cases.", "quantifier": "all forgers, all numbers of questions, all seed keys (counted) and every expanded key, all answers of the hash", "why_tests_cant": "quantifies over all adversaries and counts over 256^(228 (n + 1)) cases", "anchors": ["src/goldilocks.rs:ed448_sign", "src/goldilocks.rs:ed448_derive_public", "src/goldilocks.rs:ed448_verify", "src/goldilocks.rs:sign_with_secret_and_nonce", "src/eddsa.rs:hash_with_dom"]}
{"id": "C95", "title": "The signer can be simulated", "statement": "If the hash answers at random, then whoever asks n questions to the hash and to the signer, each chosen from the public key and the answers so far, cannot tell the signer from a simulator that knows only the public key: for n + 1 <= 2^t and k + 2t <= 444, the share of the cases in which any given test of the public key and the answers holds differs by at most 3 / 2^k between the two, counted over all seed keys. For each key in expanded form the same holds up to the share of simulated runs in which a question shows the private scalar.", "quantifier": "all ways to ask, all numbers of questions, all tests, all seed keys (counted) and every expanded key, all answers of the hash", "why_tests_cant": "quantifies over all adversaries and counts over 256^(228 (n + 1)) cases", "anchors": ["src/goldilocks.rs:ed448_sign", "src/goldilocks.rs:ed448_derive_public", "src/goldilocks.rs:sign_with_secret_and_nonce", "src/eddsa.rs:hash_with_dom"]}
{"id": "C96", "title": "The seed stays secret", "statement": "If the hash answers at random, then whoever asks n questions to the hash and to the signer finds the seed from the public key and the answers in at most (3n + 5) / 2^456 of the cases, however much they compute: in particular not from the private scalar, which the public key determines (C64). The same holds with 3n + 4 for the second half of the digest of the seed, from which the nonces are made.", "quantifier": "all ways to ask, all numbers of questions, all functions from what is seen to a guess; counted over all seed keys and answers of the hash", "why_tests_cant": "quantifies over all adversaries and counts over 256^(228 (n + 1)) cases", "anchors": ["src/goldilocks.rs:ed448_sign", "src/goldilocks.rs:ed448_derive_public", "src/goldilocks.rs:sign_with_secret_and_nonce", "src/eddsa.rs:hash_with_dom"]}
{"id": "C97", "title": "A signature is bound to one key and one message", "statement": "If the hash answers at random, then whoever asks it n questions finds one signature that is accepted for two different pairs of a public key and a message in at most (n + 2)(n + 3) / 2 times (256^114 / q + 1) of 256^114 cases, which is less than 2^(2t - 446) for n + 3 <= 2^t; all keys may be chosen, their secrets known, and any amount of computing done. Keys with the same part in the subgroup of order q are the same key here (C76), and not both keys are of small order (for these it is false, C50).", "quantifier": "all ways to ask, all numbers of questions, all choices of two keys, two messages and a signature; counted over all answers of the hash", "why_tests_cant": "quantifies over all adversaries and counts over 256^(114 (n + 2)) cases", "anchors": ["src/goldilocks.rs:ed448_verify", "src/goldilocks.rs:verify", "src/eddsa.rs:hash_with_dom"]}
{"id": "C98", "title": "The prefix of the nonces is as secret as the scalar", "statement": "One signature and the prefix from which the nonce was hashed give the private scalar modulo q, by one linear equation whose terms are public, unless q divides the challenge: for sign_with_secret_and_nonce with any prefix, and for ed448_sign with either kind of key. If one prefix is used with two keys and both sign one message, the two signatures have the same R, and each scalar gives the other by one linear equation.", "quantifier": "all keys, all prefixes, all messages, every XOF", "why_tests_cant": "a consequence for what an attacker can compute, over all keys; a test of the signer's outputs does not solve equations", "anchors": ["src/goldilocks.rs:sign_with_secret_and_nonce", "src/goldilocks.rs:ed448_sign", "src/eddsa.rs:hash_with_dom"]}
