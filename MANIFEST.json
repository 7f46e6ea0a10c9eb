{
 "claims": [
  {
   "property": "C01",
   "status": "proved",
   "theorems": [
    "C01_public_key"
   ],
   "note": "Equality with the RFC 8032 specification for every seed key and every XOF."
  },
  {
   "property": "C02",
   "status": "proved",
   "theorems": [
    "C02_public_key_expanded"
   ],
   "note": "Equality for every expanded key."
  },
  {
   "property": "C03",
   "status": "proved",
   "theorems": [
    "C03_sign"
   ],
   "note": "Equality of the whole signature with the RFC 8032 specification."
  },
  {
   "property": "C04",
   "status": "proved",
   "theorems": [
    "C04_sign_expanded"
   ],
   "note": "Equality of the whole signature; the clamped key is the nonce prefix."
  },
  {
   "property": "C05",
   "status": "proved",
   "theorems": [
    "C05_honest_verifies_refuted",
    "C05_seed_refuted",
    "C05_shake_refuted",
    "C05_nonce_refuted"
   ],
   "note": "REFUTED: the statement is false of the code. For an explicit expanded key, no signature on any message is accepted (Err(DecodePubkeyError)). C05_seed_refuted: the same of any seed, for a hash changed at this seed only. C05_shake_refuted: the same of one seed with SHAKE256 (found by a search of 7e9 seeds), whose signatures are valid by RFC 8032. C05_nonce_refuted: with any good key and any message the signature is refused because of R (Err(DecodeSignatureError)) for a hash changed at one input. The exact true condition is C06."
  },
  {
   "property": "C06",
   "status": "proved",
   "theorems": [
    "C06_honest_verifies_iff",
    "C06_decodable_point"
   ],
   "note": "Proved as an equivalence; C06_decodable_point says what decodable means for an encoded point."
  },
  {
   "property": "C07",
   "status": "proved",
   "theorems": [
    "C07_verify_exact",
    "C07_verify_accepts",
    "C07_verify_sound"
   ],
   "note": "Exact outcome of the verifier, completeness, and soundness up to the named false positive of the final comparison, tied to the points that the verifier compares."
  },
  {
   "property": "C08",
   "status": "proved",
   "theorems": [
    "C08_verify_total",
    "C08_traps",
    "C08_index",
    "C08_slice"
   ],
   "note": "Both verification functions."
  },
  {
   "property": "C09",
   "status": "proved",
   "theorems": [
    "C09_verify_errors"
   ],
   "note": "Complete classification of all outcomes."
  },
  {
   "property": "C10",
   "status": "proved",
   "theorems": [
    "C10_signature_length_refuted",
    "C10_tail_ignored"
   ],
   "note": "REFUTED: a 113-byte signature panics, a 115-byte one is accepted. Proved besides: bytes after the first 114 are ignored; C09 gives the exact panic condition."
  },
  {
   "property": "C11",
   "status": "proved",
   "theorems": [
    "C11_malleable_refuted",
    "C11_S_mod_q",
    "C11_variants",
    "C11_variant_count"
   ],
   "note": "REFUTED: S and S+q are both accepted. Proved besides: the outcome depends on S modulo q only, so that every accepted signature has at least 1024 accepted variants."
  },
  {
   "property": "C12",
   "status": "proved",
   "theorems": [
    "C12_verify_with_error"
   ],
   "note": "Equation for all inputs."
  },
  {
   "property": "C13",
   "status": "proved",
   "theorems": [
    "C13_derived_key_decodes_refuted",
    "C13_seed_refuted",
    "C13_shake_refuted",
    "C13_derived_key_decodes_iff"
   ],
   "note": "REFUTED: an explicit key whose derived public key is not decodable; any seed, for a hash changed at this seed only; and one seed with SHAKE256. Proved besides: the exact condition."
  },
  {
   "property": "C14",
   "status": "proved",
   "theorems": [
    "C14_one_encoding_refuted",
    "C14_sign_bit_refuted",
    "C14_canonical_unique"
   ],
   "note": "REFUTED in two ways (y+p, sign bit with x=0). Proved besides: uniqueness for canonical strings."
  },
  {
   "property": "C15",
   "status": "proved",
   "theorems": [
    "C15_on_curve_refuted"
   ],
   "note": "REFUTED: a string accepted although its y belongs to no point of the curve. C17 is the exact acceptance condition."
  },
  {
   "property": "C16",
   "status": "proved",
   "theorems": [
    "C16_range_refuted",
    "C16_denominator_refuted",
    "C16_point_decodes_iff"
   ],
   "note": "REFUTED in two ways (range test, Z test). Proved besides: the exact condition."
  },
  {
   "property": "C17",
   "status": "proved",
   "theorems": [
    "C17_decode_iff",
    "C17_residue"
   ],
   "note": "Equivalence for every byte string."
  },
  {
   "property": "C18",
   "status": "proved",
   "theorems": [
    "C18_alias"
   ],
   "note": "All signatures of all lengths, including the comparisons that hit the inexact equality test."
  },
  {
   "property": "C19",
   "status": "proved",
   "theorems": [
    "C19_identity_key_refuted"
   ],
   "note": "REFUTED: one signature is valid for every message under the neutral element."
  },
  {
   "property": "C20",
   "status": "proved",
   "theorems": [
    "C20_identity_public_key_refuted",
    "C20_identity_iff"
   ],
   "note": "REFUTED by the key with secret scalar 4q. Proved besides: this is the only such scalar."
  },
  {
   "property": "C21",
   "status": "proved",
   "theorems": [
    "C21_field_ops",
    "C21_field_select",
    "C21_field_reduce"
   ],
   "note": "One theorem for each group of operations, including absence of overflow."
  },
  {
   "property": "C22",
   "status": "proved",
   "theorems": [
    "C22_invert",
    "C22_isr"
   ],
   "note": "Inverse and inverse square root, all cases."
  },
  {
   "property": "C23",
   "status": "proved",
   "theorems": [
    "C23_comparison_refuted",
    "C23_comparison",
    "C23_equal_found",
    "C23_wrong_only",
    "C23_overlooked"
   ],
   "note": "REFUTED: the most significant limb is ignored. Proved besides: exact outcome, no false negatives, form and number of the false positives."
  },
  {
   "property": "C24",
   "status": "proved",
   "theorems": [
    "C24_scalar_decode"
   ],
   "note": "All byte strings shorter than 2^64."
  },
  {
   "property": "C25",
   "status": "proved",
   "theorems": [
    "C25_scalar_ops"
   ],
   "note": "All operations."
  },
  {
   "property": "C26",
   "status": "proved",
   "theorems": [
    "C26_sign_canonical",
    "C26_sign_total"
   ],
   "note": "Canonical form, and signing never panics."
  },
  {
   "property": "C27",
   "status": "proved",
   "theorems": [
    "C27_fixed_base"
   ],
   "note": "All reduced scalars."
  },
  {
   "property": "C28",
   "status": "proved",
   "theorems": [
    "C28_variable_base",
    "C28_double_base"
   ],
   "note": "All represented points, including those with a component of order 4, and all reduced scalars."
  },
  {
   "property": "C29",
   "status": "proved",
   "theorems": [
    "C29_recoding",
    "C29_trailing_zeroes"
   ],
   "note": "Window sizes 3 to 5; the crate uses 3 and 5."
  },
  {
   "property": "C30",
   "status": "proved",
   "theorems": [
    "C30_formulas",
    "C30_doubling",
    "C30_table_entries"
   ],
   "note": "All formulas, all pairs of represented points."
  },
  {
   "property": "C31",
   "status": "proved",
   "theorems": [
    "C31_encoding",
    "C31_represents_iff"
   ],
   "note": "Encoding, and the exact meaning of a representation."
  },
  {
   "property": "C32",
   "status": "proved",
   "theorems": [
    "C32_encode_decode",
    "C32_encode_decode_any"
   ],
   "note": "Subgroup points, and the general case."
  },
  {
   "property": "C33",
   "status": "proved",
   "theorems": [
    "C33_clamped_bits"
   ],
   "note": "All pairs of expanded keys that differ in clamped bits only."
  },
  {
   "property": "C34",
   "status": "proved",
   "theorems": [
    "C34_private_to_secret"
   ],
   "note": "Holds for byte strings of every length as the argument."
  },
  {
   "property": "C35",
   "status": "proved",
   "theorems": [
    "C35_secret_from_str",
    "C35_verifying_from_str",
    "C35_signing_from_str",
    "C35_from_str_panics",
    "C35_text"
   ],
   "note": "Exact domain and value of the three from_str functions."
  },
  {
   "property": "C36",
   "status": "proved",
   "theorems": [
    "C36_serde_round_trip",
    "C36_serde_binary",
    "C36_format_error"
   ],
   "note": "Both kinds of formats."
  },
  {
   "property": "C37",
   "status": "proved",
   "theorems": [
    "C37_deserialize_panics_refuted",
    "C37_deserialize_panic_iff"
   ],
   "note": "REFUTED: malformed text panics. Proved besides: exactly which text panics."
  },
  {
   "property": "C38",
   "status": "proved",
   "theorems": [
    "C38_constructors",
    "C38_bad_length",
    "C38_from_bytes"
   ],
   "note": "All constructors, all lengths."
  },
  {
   "property": "C39",
   "status": "proved",
   "theorems": [
    "C39_sign_prehash",
    "C39_sign_prehash_verifies"
   ],
   "note": "Layout, and exact condition for the two parts to verify together."
  },
  {
   "property": "C40",
   "status": "proved",
   "theorems": [
    "C40_nonces"
   ],
   "note": "Equivalence, for both kinds of keys."
  },
  {
   "property": "C41",
   "status": "proved",
   "theorems": [
    "C41_secret_dependent_refuted",
    "C41_trace_of_signing",
    "C41_trace_of_derivation",
    "C41_lookups",
    "C41_lookups_of_derivation",
    "C41_only_lookups",
    "C41_only_lookups_of_derivation",
    "C41_whole_trace_of_signing",
    "C41_whole_trace_of_derivation",
    "C41_address_reveals"
   ],
   "note": "REFUTED in a model that returns the trace of branches, computed indices, table reads and hash calls (two keys with different traces, for every message). Proved besides: the traced functions compute the same results as the untraced ones; the exact list of table entries read; nothing else in the trace depends on the key; what one address reveals. Wall-clock time is outside the model; until the trace model existed the property was worded with time and marked not applicable."
  },
  {
   "property": "C42",
   "status": "proved",
   "theorems": [
    "C42_uniform",
    "C42_generate"
   ],
   "note": "Counting form: each of the 256^57 keys is returned for exactly one of the 256^57 generator outputs. The quality of the generator is a hypothesis of the property."
  },
  {
   "property": "C43",
   "status": "proved",
   "theorems": [
    "C43_rfc_accepts",
    "C43_accepts_rfc"
   ],
   "note": "Completeness, and soundness up to the named false positive."
  },
  {
   "property": "C44",
   "status": "proved",
   "theorems": [
    "C44_hex_helpers"
   ],
   "note": "Exact domain and value."
  },
  {
   "property": "C45",
   "status": "proved",
   "theorems": [
    "C45_generated_rfc_refuted",
    "C45_condition",
    "C45_half"
   ],
   "note": "REFUTED: a generated key with the top bit set is taken as an expanded key; witness with SHAKE256. Proved besides: the exact condition, and that exactly half of the generator outputs are in that case."
  },
  {
   "property": "C46",
   "status": "proved",
   "theorems": [
    "C46_deserialize_refuted",
    "C46_deserialize",
    "C46_deserialize_serialize"
   ],
   "note": "REFUTED both ways: p+1 is accepted, 2^224-1 panics. Proved besides: the exact value, and that the test looks at the low 224 bits only, comparing them with 2^224 - 2^112 - 1."
  },
  {
   "property": "C47",
   "status": "proved",
   "theorems": [
    "C47_is_on_curve_refuted",
    "C47_is_on_curve",
    "C47_on_twisted",
    "C47_represents_on_twisted"
   ],
   "note": "REFUTED both ways: a representation of the neutral element with Z = 2^420 is refused, coordinates off the curve are accepted. Proved besides: the exact outcome."
  },
  {
   "property": "C48",
   "status": "proved",
   "theorems": [
    "C48_unique_S"
   ],
   "note": "Up to the named false positive of the final comparison."
  },
  {
   "property": "C49",
   "status": "proved",
   "theorems": [
    "C49_unique_challenge",
    "C49_collision"
   ],
   "note": "Up to the named false positive of the final comparison."
  },
  {
   "property": "C50",
   "status": "proved",
   "theorems": [
    "C50_small_key_refuted",
    "C50_equation"
   ],
   "note": "REFUTED: signatures (enc([s]B), s) are accepted on every message. Proved for every such key and every s with decodable enc([s]B); C50_equation says why."
  },
  {
   "property": "C51",
   "status": "proved",
   "theorems": [
    "C51_expanded_form"
   ],
   "note": "The condition on the encodings is the exact one of C06."
  },
  {
   "property": "C52",
   "status": "proved",
   "theorems": [
    "C52_shared_R"
   ],
   "note": "Consequence for any hash; C88 bounds how often R repeats."
  },
  {
   "property": "C53",
   "status": "proved",
   "theorems": [
    "C53_montgomery",
    "C53_mul",
    "C53_decode"
   ],
   "note": "Exact value modulo q; decode also with its exact panic condition."
  },
  {
   "property": "C54",
   "status": "proved",
   "theorems": [
    "C54_equal_keys",
    "C54_accessors",
    "C54_signature_layout"
   ],
   "note": "Equality, accessors and layout, for keys made by any constructor."
  },
  {
   "property": "C55",
   "status": "proved",
   "theorems": [
    "C55_display_text",
    "C55_display_distinct",
    "C55_debug_distinct",
    "C55_display_is_not_debug"
   ],
   "note": "Proved as stated; C55_display_is_not_debug records that the text of DecodeError is misspelt (DecodeErrro)."
  },
  {
   "property": "C56",
   "status": "proved",
   "theorems": [
    "C56_every_error_occurs_refuted",
    "C56_errors_returned"
   ],
   "note": "REFUTED: DecodeError, InvalidLengthError and InvalidSignatureLengthError are never returned. Proved besides: exactly which errors are returned."
  },
  {
   "property": "C57",
   "status": "proved",
   "theorems": [
    "C57_debug_hides_secret_refuted",
    "C57_debug_hides_signing_key_refuted",
    "C57_debug_text"
   ],
   "note": "REFUTED: the derived Debug prints the bytes; the text determines the key. Proved besides: the exact text."
  },
  {
   "property": "C58",
   "status": "proved",
   "theorems": [
    "C58_key_validated_refuted"
   ],
   "note": "REFUTED: 57 bytes 1 (the key of the crate's own test) are taken as a key; the decoder refuses them, so that every signature but the zero one yields DecodePubkeyError."
  },
  {
   "property": "C59",
   "status": "proved",
   "theorems": [
    "C59_scalar_constructors",
    "C59_point_constructors"
   ],
   "note": "Exact results."
  },
  {
   "property": "C60",
   "status": "proved",
   "theorems": [
    "C60_refusals_rare_refuted",
    "C60_refused_count",
    "C60_share",
    "C60_refused"
   ],
   "note": "REFUTED: exactly 2113536*2^392 of the y below p are refused, a share between 2^-35 and 2^-34; every string with such a y is refused by the decoder."
  },
  {
   "property": "C61",
   "status": "proved",
   "theorems": [
    "C61_modulus_refuted",
    "C61_modulus_packed",
    "C61_scalar_constants",
    "C61_size_constants",
    "C61_field_constants"
   ],
   "note": "REFUTED for MODULUS, which is p in words of alternately 24 and 32 bits but is used with limbs of 28 bits (the cause of the first part of C16). Proved for the other constants."
  },
  {
   "property": "C62",
   "status": "proved",
   "theorems": [
    "C62_honest_valid"
   ],
   "note": "All keys of both kinds."
  },
  {
   "property": "C63",
   "status": "proved",
   "theorems": [
    "C63_verify_is_rfc_refuted",
    "C63_mixed_key"
   ],
   "note": "REFUTED with SHAKE256 by a public key with a component of order 2: the verifier hashes the encoding of the component in the group of B, not the given bytes. Proved besides: for such keys a signature that both accept needs challenges that agree modulo q (or the named false positive). C43 is the positive result for keys in the group of B."
  },
  {
   "property": "C64",
   "status": "proved",
   "theorems": [
    "C64_scalar_unique"
   ],
   "note": "Equality of integers, not only modulo q: clamped scalars lie in an interval shorter than 4 q and are multiples of 4."
  },
  {
   "property": "C65",
   "status": "proved",
   "theorems": [
    "C65_clamp",
    "C65_point_by_secret",
    "C65_private_to_secret",
    "C65_blocks",
    "C65_zero_test"
   ],
   "note": "Each inner function for itself, with exact panic conditions."
  },
  {
   "property": "C66",
   "status": "proved",
   "theorems": [
    "C66_prehash_refuted"
   ],
   "note": "REFUTED with SHAKE256: the flag byte is 0. What holds is C39: the pure Ed448 signature over the prehash."
  },
  {
   "property": "C67",
   "status": "proved",
   "theorems": [
    "C67_extraction",
    "C67_extracted_secret"
   ],
   "note": "Up to the named false positive of the final comparison."
  },
  {
   "property": "C68",
   "status": "proved",
   "theorems": [
    "C68_simulation",
    "C68_perfect"
   ],
   "note": "Completeness of the comparison is exact, so that no exception for false positives is needed. C68_perfect: for a key x B the transcripts made without x are exactly the honest ones."
  },
  {
   "property": "C69",
   "status": "proved",
   "theorems": [
    "C69_cofactorless"
   ],
   "note": "With R and A decoded by the decoder of RFC 8032."
  },
  {
   "property": "C70",
   "status": "proved",
   "theorems": [
    "C70_accepted_cofactorless_refuted",
    "C70_up_to_torsion"
   ],
   "note": "REFUTED for every message and every XOF. Proved besides: the equation with the factor 4 is the plain equation up to a point of order 1, 2 or 4."
  },
  {
   "property": "C71",
   "status": "proved",
   "theorems": [
    "C71_one_key_refuted",
    "C71_shifted_keys"
   ],
   "note": "REFUTED for every message and every XOF. Proved besides: every honest signature is accepted under all decodable keys shifted by points of order 1, 2 or 4."
  },
  {
   "property": "C72",
   "status": "proved",
   "theorems": [
    "C72_no_panic_refuted",
    "C72_verify_panics",
    "C72_text_panics",
    "C72_slice_panics",
    "C72_never_panics"
   ],
   "note": "REFUTED. Proved besides: exactly which inputs panic, for each function that can panic, and that the others never do."
  },
  {
   "property": "C73",
   "status": "proved",
   "theorems": [
    "C73_every_point_refuted",
    "C73_public_keys",
    "C73_public_count",
    "C73_keys_per_public"
   ],
   "note": "REFUTED: B itself is no public key, whatever the hash. Proved besides: the exact set of public keys, its size 2^445, and that 1024 expanded keys have each of them."
  },
  {
   "property": "C74",
   "status": "proved",
   "theorems": [
    "C74_group",
    "C74_point_count",
    "C74_secret_scalar"
   ],
   "note": "Structure and number of points of the curve, and the unique logarithm of a decoded key."
  },
  {
   "property": "C75",
   "status": "proved",
   "theorems": [
    "C75_small_order_refuted",
    "C75_small_encodings",
    "C75_ten"
   ],
   "note": "REFUTED: of the ten strings of small order the decoder accepts all, ed448_verify only refuses the all-zero one; under each of the other nine one signature is valid for all messages. Proved besides: the list of the ten strings is complete."
  },
  {
   "property": "C76",
   "status": "proved",
   "theorems": [
    "C76_derive_queries",
    "C76_sign_queries",
    "C76_verify_queries"
   ],
   "note": "Stated as independence: two hashes that agree on the listed inputs give equal results."
  },
  {
   "property": "C77",
   "status": "proved",
   "theorems": [
    "C77_linear",
    "C77_verify"
   ],
   "note": "The converse holds up to the named false positive of the final comparison."
  },
  {
   "property": "C78",
   "status": "proved",
   "theorems": [
    "C78_small_R_refuted",
    "C78_reveals"
   ],
   "note": "REFUTED: all ten encodings of points of small order are accepted as R (unless the whole signature is zero). Proved besides: such a signature gives the secret scalar away."
  },
  {
   "property": "C79",
   "status": "proved",
   "theorems": [
    "C79_distinct",
    "C79_sign_inputs",
    "C79_verify_inputs"
   ],
   "note": "Inputs of one call are distinct, and determine what was signed or verified."
  },
  {
   "property": "C80",
   "status": "proved",
   "theorems": [
    "C80_verify",
    "C80_sign",
    "C80_derive",
    "C80_erase"
   ],
   "note": "In a model that returns the list of point operations and hash calls; C80_erase: it computes the same results. C80_case_largest: the largest number of doublings is reached. Calls that panic (C72) are not counted."
  },
  {
   "property": "C81",
   "status": "proved",
   "theorems": [
    "C81_hits",
    "C81_distance",
    "C81_digests"
   ],
   "note": "Counting over all strings of bytes; nothing is said about the hash itself."
  },
  {
   "property": "C82",
   "status": "proved",
   "theorems": [
    "C82_verify",
    "C82_keys",
    "C82_inputs",
    "C82_wraps"
   ],
   "note": "In a second model (Release.v) of all functions that contain or call an overflow check. Example C82_case_differ: the builds differ on an internal function for inputs that no public function produces."
  },
  {
   "property": "C83",
   "status": "proved",
   "theorems": [
    "C83_verify",
    "C83_keys",
    "C83_inputs",
    "C83_usize"
   ],
   "note": "In a third model (Target32.v) of all functions that compute with usize or call one that does. Example C83_case_differ: the targets differ on internal operations for numbers that no public function produces."
  },
  {
   "property": "C84",
   "status": "proved",
   "theorems": [
    "C84_forking",
    "C84_revealed_secret"
   ],
   "note": "Counting form of the forking lemma. Runs that are accepted only because the final comparison ignores the top limb (false_positive) are not counted as wins, nor an R that is not on the curve. No signing queries."
  },
  {
   "property": "C85",
   "status": "proved",
   "theorems": [
    "C85_simulation",
    "C85_seeds",
    "C85_forking",
    "C85_revealed_secret",
    "C85_rfc_condition",
    "C85_given_R"
   ],
   "note": "The forger is given the public key derived from the seed (real_game, sim_game). Each message is signed once (the signer is deterministic). A forgery counts unless its R was given out with the same message (strong unforgeability up to multiples of q in S, which C11 shows to be accepted). Seed keys only. Forgeries are counted which meet the further condition exact, instantiated by the equation of RFC 8032 (GameCase.rfc_test), so that acceptances through the ignored top limb are left out. The seed is asked of the hash at the start of the real game."
  },
  {
   "property": "C86",
   "status": "proved",
   "theorems": [
    "C86_seed_complete",
    "C86_expanded_complete",
    "C86_expanded_count",
    "C86_refused_multiples"
   ],
   "note": "The two answers counted are those for the seed and for the input of the nonce; the rest of the hash, the challenge included, is any table of bytes. The bound is an upper bound: if the multiples of B are spread evenly over the values of y the true rate is about one in 2^34. Complete.v counts by the fibres of y (at most two) and by the roots of a polynomial of degree 8."
  },
  {
   "property": "C87",
   "status": "proved",
   "theorems": [
    "C87_simulation",
    "C87_read_secret",
    "C87_forking"
   ],
   "note": "For each key, without an average over keys; the forger is any, so it may depend on the public key. The game with own nonces differs from the real one only after a question which holds the secret scalar in the place of the prefix; that event is carried through the simulation (hop2 of GameHop.v with a larger final test)."
  },
  {
   "property": "C88",
   "status": "proved",
   "theorems": [
    "C88_seed_nonces",
    "C88_expanded_nonces",
    "C88_repeats"
   ],
   "note": "The answers for the inputs of the nonces are counted; the digest of the seed and the rest of the hash, the challenges included, are any bytes. The bound is the sum over pairs."
  },
  {
   "property": "C89",
   "status": "proved",
   "theorems": [
    "C89_generated_keys"
   ],
   "note": "A repeated draw of the generator is counted as a repetition too (the answer of the hash for it is then the first one of the list). The 2^11 is the number of digests, of both kinds of keys together, for one public key."
  },
  {
   "property": "C90",
   "status": "proved",
   "theorems": [
    "C90_table",
    "C90_panics",
    "C90_only_call"
   ],
   "note": "Prepare.v models the function with its parameters; ExtendedPoint.v keeps the form of the only call, C90_only_call relates the two. A negative table_size does not exist in Rust."
  },
  {
   "property": "C91",
   "status": "proved",
   "theorems": [
    "C91_seed_disclosed",
    "C91_expanded_disclosed"
   ],
   "note": "One message; the answers for its nonce and its challenge are counted, the rest of the hash is any table of bytes (the challenge is the answer for the input with the R of the nonce). Several signatures: C85 and C87."
  },
  {
   "property": "C92",
   "status": "proved",
   "theorems": [
    "C92_stored_key"
   ],
   "note": "The constructors only make matching pairs (C38); the theorem is about the method for any stored key."
  },
  {
   "property": "C93",
   "status": "proved",
   "theorems": [
    "C93_signing",
    "C93_derivation"
   ],
   "note": "The observer sees the addresses of whole table entries, as in the trace of C41 (Trace.v); an observer of cache lines sees less. The lists are defined in SpecLeak.v from the addresses alone; [8u]B for the first list and A - [8v - ...]B for the second meet. That the addresses do not always determine the scalar: C93_case."
  },
  {
   "property": "C94",
   "status": "proved",
   "theorems": [
    "C94_seed_keys",
    "C94_expanded_keys",
    "C94_counted"
   ],
   "note": "C85 and C87 put together. Forgeries count if their R was not given out for the message and they satisfy the equation of RFC 8032 (rfc_test); C94_counted: this leaves out only those accepted by a false positive of the last comparison (C07) or with an R that is no point of the curve (C15)."
  },
  {
   "property": "C95",
   "status": "proved",
   "theorems": [
    "C95_seed_keys",
    "C95_expanded_keys",
    "C95_shown"
   ],
   "note": "C91 for many signatures and questions that depend on each other. A second question for the signature of a message is refused in both games (the signer is deterministic, so the answer is already known). The expanded form needs the additional term: the key is the secret part of the input of the nonces (C95_expanded_case), and C95_shown gives the scalar from such a question. The sight has one coin more than questions; the last is not used."
  },
  {
   "property": "C96",
   "status": "proved",
   "theorems": [
    "C96_seed",
    "C96_prefix"
   ],
   "note": "Not about expanded keys: there the key is the scalar itself, apart from bits without effect (C33)."
  },
  {
   "property": "C97",
   "status": "proved",
   "theorems": [
    "C97_binding",
    "C97_rate"
   ],
   "note": "Acceptances through the ignored top limb of the final comparison (false_positive, C77) and an R that is not on the curve are not counted, as in C84. No signing queries: whoever chooses all keys needs no signer."
  },
  {
   "property": "C98",
   "status": "proved",
   "theorems": [
    "C98_known_prefix",
    "C98_known_prefix_key",
    "C98_shared_prefix"
   ],
   "note": "The equation determines the scalar modulo q, which is what the public key determines and what forging needs. If k = 0 modulo q, then S is the nonce and the equation says nothing."
  }
 ]
}