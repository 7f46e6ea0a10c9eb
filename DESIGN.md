# Design of the model and the proofs (ed448-rs)

## 1. What is modelled, and how

Language: Coq 8.16.1, standard library only.  Everything is under `rocq/theories/`.

* **Machine integers** are `Z`.  Wrapping operations are written with an explicit `mod 2^32` /
  `mod 2^64`.  Operations that trap in debug builds (`+`, `-`, `*` on `u32/u64/i64/usize` without
  `wrapping_`), slice indexing and `copy_from_slice` with unequal lengths go through a result
  monad `option` whose `None` is "panic".  A theorem of the form `f x = Some r` therefore says:
  no panic, and debug and release builds agree.
* **BigNumber** (`[u32;16]`) is a list of 16 limbs / a 16-field record of `Z`, **Scalar** (`[u32;14]`)
  is a list of 14 words.  Loops over fixed ranges are structural recursion over the same ranges.
* **Functions with `&mut`** return the new value.
* **SHAKE256** (crate `sha3`) is a parameter `xof : list Z -> nat -> list Z` quantified in every theorem,
  with the hypotheses `is_xof`: output has the requested length, output bytes are in 0..255, and a shorter
  read is a prefix of a longer one.  `SpecShake.v` defines SHAKE256 itself (FIPS 202), `Shake.v` proves that it
  meets the hypotheses (`xof_instance`), and witnesses that need a concrete hash use it.
* **hex crate**: `decode_to_slice` / `encode` are modelled from their documented behaviour
  (even length, length = 2*out, digits 0-9a-fA-F).
* **serde**: a format is modelled by its `is_human_readable` flag and the string it carries.
* **rand**: the bytes delivered by the RNG are a parameter.
* **Texts** (`Text.v`): `Display` of the errors and the derived `Debug` of errors and keys, in their ordinary
  forms `{}` and `{:?}` (not `{:#?}`, no width or precision).
* **Trace** (`Trace.v`): signing and key derivation once more, returning the branches taken, computed indices,
  table entries read and hash calls.  Functions whose branches and indices depend on loop counters only are
  `quiet` there; the list is in the head of the file.  Whether the compiler keeps the branch-free parts
  branch-free, caches, and wall-clock time are outside.
* **Work** (`Cost.v`): signing, derivation and verification once more, returning the list of point additions, point
  doublings and hash calls carried out.
* **Release builds** (`Release.v`): the 85 functions that contain or call an overflow check, once more, with wrapping
  operators.  The file is generated from the model files by renaming; `ReleaseProofs.v` compares function by function.
* **32-bit targets** (`Target32.v`): the 37 functions that compute with usize or call one that does, once more, with a
  usize of 32 bits, generated in the same way; `TargetProofs.v` compares function by function.
* **Not modelled**: memory zeroisation, `prehash.rs` (not compiled in: no `mod prehash`), the test modules.
  `TestVectors.v` and `UnitTests.v` run the model on all inputs of the crate's tests; this is a test of the reading,
  not a proof.

Model files (every definition cites file and lines):
`Base.v` (monad, machine ints), `Constants32.v`, `Karatsuba32.v`, `KaratsubaSquare32.v`, `BigNumber.v`,
`ScalarModel.v`, `Niels.v`, `CombTable.v` / `WnafTable.v` (tables, generated by a script from the Rust text),
`Errors.v`, `ExtendedPoint.v`, `Eddsa.v`, `Goldilocks.v`, `Lib.v`, `Text.v`, `Trace.v`, `Cost.v`, `Release.v`, `Target32.v`, `Game.v`, `Seen.v`, `Prepare.v`.

## 2. Specification (independent of the model)

`Spec*.v`: integers mod p as a field; the Ed448 curve `x^2 + y^2 = 1 - 39081 x^2 y^2`, its addition law,
scalar multiplication by iteration, base point, RFC 8032 encoding, clamping, key derivation, signing and
the cofactored verification equation, all written with `Z`, `list Z` and field operations only
(no limb code, no model helper).

Two specification files mention the model on purpose: `SpecInternal.v` says what a limb vector, a word
vector, a projective point or a table entry *stands for* (needed to state anything about internal
functions), and `SpecVerify.compared` names the two points which the verifier hands to its last comparison
(needed to state the false positives of that comparison, see 4).

## 3. Proof plan by layer

1. *Number theory*: p prime (Pocklington certificate, checked by computation), Fermat, Euler criterion for
   the few constants through explicit square roots (39081 and -39082 are squares, -1 is not).
2. *Limb layer*: for every limb function a Hoare-style lemma: limb bounds in => `Some r`, limb bounds out,
   value of r mod p.  The wrapping/accumulating code is unfolded symbolically and closed with `ring`/`lia`.
3. *Scalar layer*: chain invariants by induction on words; Montgomery product = x*y/R mod q; decode_long by
   induction on blocks.
4. *Curve layer*: Edwards addition law on E (complete since d is a non-square) is an abelian group;
   the 4-isogeny phi(x,y) = (2xy/(y^2-x^2), (x^2+y^2)/(2-x^2-y^2)) to the twisted curve
   -x^2+y^2 = 1 - 39082 x^2y^2 used by the code is a homomorphism, and the twisted formulas have no
   exceptional case on its image; the dual isogeny composed with phi is [4].
5. *Point layer*: each point function respects the relation "projective point (X,Y,Z,T) represents phi(Q)".
6. *Multiplication algorithms*: comb, fixed window, wNAF: loop invariants in terms of integer digits.
   The tables are checked entry by entry against multiples of the base point (computation in the kernel).
7. *Decode/encode*, then *sign/verify/derive*, then the *lib.rs API*.

How the harder steps are done:

* *Primality of p and q*: Pocklington certificates checked with `vm_compute` (`PrimeP.v`, `PrimeQ.v`).
* *Sign and 4-torsion*: the crate's points are only determined up to simultaneous negation of X/Z and
  Y/Z, and the kernel of phi is the 4-torsion.  `represents p Q` in `SpecInternal.v` has exactly this slack:
  Q counts up to a point of order dividing 4.
* *Tables*: each of the 80 comb entries and 32 wNAF entries is compared with the multiple of the base point
  it should be.  The multiples are not recomputed from scratch: `BaseHints.v` holds affine points
  (generated outside, untrusted) and `BaseTables.v` checks by computation that each follows from earlier ones by
  the addition law.
* *Cost*: `coqchk` repeats every `vm_compute` about 60 times slower than `coqc`, so the total VM time of
  the development is kept under half a minute.
* *Witnesses* for refuted properties were found outside (Python, and a C program for the seed of C05) and are checked here by computation
  plus the general theorems (no witness is checked by running the whole signing model where a theorem does it).

## 4. Property by property

Status convention in `MANIFEST.json`: a property whose truth value is settled by a theorem is `proved`.  When it
is false the theorem has the suffix `_refuted`, the note starts with `REFUTED`, and theorems on what does hold
stand beside it.

The verifier's final comparison looks at the low 420 bits of Y1 X2 - X1 Y2 only.  Soundness statements
therefore read "... or the comparison erred", and *erred* is pinned down: the two compared points, as computed,
have a cross difference j 2^420 with 0 < j < 2^28 (`false_positive`).  Completeness statements do not have
this clause.

| id | what is proved |
|----|------|
| C01, C02 | ed448_derive_public = RFC spec, both kinds of keys |
| C03, C04 | ed448_sign = RFC spec; for expanded keys with the nonce prefix which the code uses |
| C05, C06 | refuted by an expanded key whose public key the decoder refuses, by every seed for some hash (`SeedWitness.v`), and by one seed with SHAKE256 (`ShakeWitness.v`, found by a search of 7e9 seeds); with a good key the R of a signature is refused for some hash (`NonceWitness.v`); C06: exact condition |
| C07 | both directions, with the false positive visible |
| C08, C09 | no panic for 114 bytes or more; every outcome of verification as an equivalence; what counts as a panic is stated exactly for each checked operation and index (`SpecTraps.v`, `Traps.v`) |
| C10, C11 | refuted; what happens to longer signatures, dependence on S mod q only |
| C12 | theorem |
| C13-C16 | refuted by explicit encodings; exact conditions |
| C17 | acceptance of the decoder as an equivalence, including the skipped limb |
| C18 | in full: keys that differ by a point of order dividing 4 give the same outcome on every signature |
| C19, C20 | refuted; all signatures of the form (enc([s]B), s); 4q is the only such scalar |
| C21, C22 | every function of bignumber.rs, with bounds of limbs |
| C23 | refuted; exact condition |
| C24-C26 | scalars modulo q, canonical signatures |
| C27-C29 | comb, window, double-base multiplication; wNAF |
| C30-C32 | point formulas, encoding, decoding then encoding |
| C33, C34 | clamping; private_to_secret |
| C35-C39 | lib.rs: text, serde, constructors, sign_prehash; C37 refuted |
| C40 | equal R exactly when equal nonces modulo q |
| C41 | refuted in the trace model (the table addresses depend on the key); exact addresses, nothing else depends on the key; the whole trace as a list (`SpecEvents.v`, `TraceWhole.v`).  First planned as "not expressible" with wall-clock wording; reworded when `Trace.v` was added |
| C42 | counting form: uniform generator bytes give uniform keys.  First planned as "not expressible", reworded the same way |
| C43 | agreement with RFC verification for keys in the group of B |
| C44 | hex helpers |
| C45 | refuted; exact condition, exactly half of the generator outputs |
| C46, C47 | refuted both ways; exact outcome of deserialize and is_on_curve |
| C48, C49 | uniqueness of S, binding of the message, up to false positives |
| C50 | refuted for every key of small order |
| C51, C52 | expanded form of a seed key; two signatures with one R |
| C53 | montgomery_multiply, mul, decode on their full domains |
| C54 | accessors |
| C55-C57 | texts; the errors that can be returned (refuted: three cannot); Debug prints secrets (refuted) |
| C58 | refuted: no validation in VerifyingKey |
| C59 | small constructors |
| C60 | refuted: exact number of canonical y that the range test refuses (`Count.v`) |
| C61 | refuted for MODULUS (wrong packing, the cause of the range test's errors); the other constants are right |
| C62-C64 | interoperability: honest signatures are RFC-valid; verification under keys outside the group of B is not RFC verification (refuted with SHAKE256); public keys determine secret scalars |
| C65 | clamp, private_to_secret, point_by_secret, secret_to_public, private_to_public, sign_by_private, sign_with_secret_and_nonce, the zero test |
| C66 | refuted: sign_prehash is not Ed448ph (flag byte 0); it is pure Ed448 over the prehash (C39) |
| C67, C68 | special soundness (extraction of the secret) and simulation with a hash changed at one input (`Protocol.v`, `SpecProtocol.v`) |
| C69, C70 | honest signatures satisfy the equation without cofactor; accepted ones need not (refuted), but do up to a point of order 1, 2 or 4 |
| C71 | refuted: one signature is accepted under several public keys |
| C72 | refuted: exactly which inputs make a public function panic (`Panics.v`) |
| C73 | refuted: B is nobody's public key; the exact set of public keys (2^445, each with 1024 expanded keys) (`Structure.v`) |
| C74 | the points of the curve are i B + j (1,0), each once, 4 q in all; one secret scalar behind every accepted public key |
| C75 | refuted: the ten strings of small order decode, and nine of them can be forged under (`SmallKeys.v`, `SpecStructure.v`) |
| C76 | the strings that are hashed; nothing else of the hash matters (`Queries.v`, `SpecQueries.v`) |
| C77 | verification as S = r + k x modulo q between discrete logarithms |
| C78 | refuted: R of small order is accepted, and gives the secret scalar away (`Transcripts.v`) |
| C79 | the strings that are hashed are unambiguous |
| C80 | bounds on the point operations and hash calls of verification, exact counts for signing and derivation, in a counting model (`Cost.v`) |
| C81 | exact number of 114-byte strings per scalar of `decode_long`, distance at most 2^-466 from uniform for every set; 2048 digests per public key |
| C82 | release builds (`Release.v`: the overflow checks replaced by wrapping) give the same results, errors and panics as debug builds |
| C83 | targets with a 32-bit usize (`Target32.v`: usize checks and casts for 32 bits) give the same results, errors and panics as 64-bit targets |
| C84 | forking lemma by counting: a forger that only asks the hash gives the discrete logarithm of the key when it is run twice (`SpecForger.v`, `Forking.v`, `Forger.v`) |
| C85 | signing queries: the real game (seed key, forger given the derived public key, lazily sampled hash, `ed448_sign`, `ed448_verify`) against the game with simulated signatures, and the forking lemma for the latter; a forgery counts unless its R was given out with the same message (`Game.v`, `GameFork.v`, `GameHop.v`, `GameReal.v`, `GameCase.v`) |
| C86 | random answers of the hash for the seed and for the nonce: at most one in 2^30 pairs for which the honest signature is refused (`Complete.v`, by counting the values of y refused, at most two multiples of B for each y, and the roots of a polynomial of degree 8 for the second test of the decoder; `CompleteCase.v`) |
| C87 | signing queries to a key which is the secret scalar itself: the real game against the simulated one, where the forger also counts as successful if a question for the hash holds the secret (`GameExpanded.v`, `GameExpandedCase.v`) |
| C88 | random answers of the hash for the inputs of the nonces of n different messages: two signatures have the same R for at most n(n-1)/2 L/N of them (`Repeat.v`, `repeats` of `SpecRepeat.v`; `RepeatCase.v`) |
| C89 | n keys of `SigningKey::random`: two verifying keys coincide for at most n(n-1)(2^11+1)/2^457 of the draws and answers (`Repeat.v`, `RepeatCase.v`) |
| C90 | `decaf_prepare_wnaf_table` with its parameters: the odd multiples, the rest of the table, the point afterwards, the panics; the only call (`Prepare.v`, `PrepareProofs.v`) |
| C91 | one signature and its challenge are within 2^-466 of what is made from the public key, both kinds of keys (`Disclose.v`, `DiscloseCase.v`) |
| C92 | `sign_prehash` with any stored verifying key (`DiscloseCase.v`) |
| C93 | from the addresses of the table entries read: at most 2^90 scalars, found with two lists of 2^45 (`SpecLeak.v`, `LeakCount.v`, `LeakKey.v`) |
| C94 | C85 and C87 put together as rates (`Advantage.v`, `AdvantageCase.v`) |
| C95 | no test of the public key and the answers tells the signer from the simulator (`Seen.v`, `Simulate.v`, `SimulateCase.v`) |
| C96 | neither the seed nor the second half of its digest is found from what is seen (`SeedSecret.v`) |
| C97 | a signature is accepted for two pairs of key and message in at most (n+2)(n+3)/2 of about 2^446 cases, whoever chooses the keys (`SpecBinding.v`, `Binding.v`) |
| C98 | the nonce prefix with one signature gives the scalar; one prefix under two keys links their scalars (`Prefix.v`) |

## 5. Trusted base

* Coq's kernel (including `vm_compute`) and coqchk.
* What `Print Assumptions` lists for each theorem in `Properties.v`, `Properties2.v` and `Properties3.v`: "Closed under the global context" for
  all of them.  (coqchk also lists seven axioms of the standard library file `ssrunder`, loaded by a library
  dependency; no theorem uses them.)
* The reading of the Rust text into Gallina (section 1), including the documented behaviour of `hex`,
  `serde`, `rand`, `sha3` and of Rust's integer operations.

## 6. Mutation tests

`seeded/LOG.jsonl` has one line per wrong program tried: the model was edited in a copy outside this
directory, rebuilt, and the theorems that no longer prove were listed.

"Failed" in the log means that the proof script of the theorem, or of a lemma it depends on, no longer
goes through with the edited model; it was not proved that each such theorem is false for that model.
Most lines (`auto…`) come from a generator that changes one operator, constant or operand of the model
at a time; edits that do not type-check are left out.

Survivors that showed a gap, and what was added (the edit fails now):
- `lib30`: C36_format_error; `ext65`: C29_recoding (count, length and tail of the recoding);
- `ext33`, `auto493`: C29_trailing_zeroes (the value for 0 is not used by the recoding);
- `auto840`: the primitives of `Trace.v` and C41_only_lookups_of_derivation;
- `auto783`, `auto829`: C41_whole_trace_of_signing and C41_whole_trace_of_derivation, which give the trace as a list.

Survivors with the same behaviour as the model, kept as such in the log: `ext78`, `auto3`, `auto136`, `auto392`,
`auto440`, `auto705`, `auto713`, `auto762`.  `auto52` and `auto53` edited a definition that was not used; it was removed.
