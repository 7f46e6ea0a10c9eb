(* The theorems for the properties of /verif/properties.jsonl from C73 on, in the manner of Properties.v. *)
From Coq Require Import ZArith List Bool.
From Verif Require Import SpecField SpecBytes SpecScalar SpecCurve SpecDecode SpecEd448 SpecVerify SpecInternal SpecUniform SpecStructure SpecQueries SpecCost SpecApi SpecForger SpecRepeat SpecTrace SpecLeak SpecBinding SpecTraps.
From Verif Require Import Base Constants32 Errors BigNumber ScalarModel ExtendedPoint Eddsa Goldilocks Lib Trace Cost Release Target32 Game Seen Prepare.
From Verif Require Structure SmallKeys Queries Samples Samples4 Transcripts CostProofs CostCases Unbias ReleaseApi TargetApi Forger ForgerCase GameReal GameCase Witness Complete CompleteCase GameExpanded GameExpandedCase Repeat RepeatCase PrepareProofs Disclose DiscloseCase LeakCount LeakKey Advantage AdvantageCase Simulate SimulateCase SeedSecret Binding BindingCase Traps Prefix.
Import ListNotations.
Open Scope Z_scope.

(* C73 is false *)
Theorem C73_every_point_refuted : forall xof, is_xof xof -> exists P, on_curve P /\ emul q448 P = ezero /\ P <> ezero /\
  forall key, length key = 57%nat -> bytes key -> ed448_derive_public xof key <> Some (eencode P).
Proof. exact Samples4.missing_point. Qed.
Print Assumptions C73_every_point_refuted.
(* the set of public keys, whatever the hash *)
Theorem C73_public_keys : forall xof, is_xof xof -> forall pub,
  (exists key, length key = 57%nat /\ bytes key /\ ed448_derive_public xof key = Some pub) <->
  exists t, 0 <= t < 2 ^ 445 /\ pub = eencode (emul (2 ^ 447 + 4 * t) ebase).
Proof. exact Structure.public_keys. Qed.
Print Assumptions C73_public_keys.
Theorem C73_public_count : forall xof, is_xof xof -> exists l, NoDup l /\ Z.of_nat (length l) = 2 ^ 445 /\
  forall pub, In pub l <-> exists key, length key = 57%nat /\ bytes key /\ ed448_derive_public xof key = Some pub.
Proof. exact Structure.public_count. Qed.
Print Assumptions C73_public_count.
Theorem C73_keys_per_public : forall xof, is_xof xof -> forall pub key, length key = 57%nat -> bytes key -> ed448_derive_public xof key = Some pub ->
  tally (fun k => enc_sign k && match ed448_derive_public xof k with Some pub' => same_string pub' pub | None => false end) (strings 57) = 1024.
Proof. exact SmallKeys.keys_per_public. Qed.
Print Assumptions C73_keys_per_public.
Example C73_case : length Samples.key4 = 57%nat /\ bytes Samples.key4 /\ enc_sign Samples.key4 = true /\
  ed448_derive_public Samples.xof1 Samples.key4 = Some (eencode (emul 4 ebase)).
Proof. exact Samples4.public_case. Qed.

(* C74: the group of the curve, and the secret scalar behind a public key *)
Theorem C74_group : forall P, on_curve P -> exists i j, 0 <= i < q448 /\ 0 <= j < 4 /\ P = eadd (emul i ebase) (emul j (fone, fzero)) /\
  forall i' j', 0 <= i' < q448 -> 0 <= j' < 4 -> P = eadd (emul i' ebase) (emul j' (fone, fzero)) -> i' = i /\ j' = j.
Proof. exact Samples4.group_span. Qed.
Print Assumptions C74_group.
Theorem C74_point_count : exists l, NoDup l /\ (forall P, In P l <-> on_curve P) /\ Z.of_nat (length l) = 4 * q448.
Proof. exact Structure.point_count. Qed.
Print Assumptions C74_point_count.
Theorem C74_secret_scalar : forall src A p, bytes src -> denotes src A -> eddsa_like_decode src = Some (Ok p) ->
  exists x, 0 <= x < q448 /\ subgroup_part A = emul x ebase /\ eddsa_like_encode p = Some (eencode (emul x ebase)) /\
  forall x', 0 <= x' < q448 -> eddsa_like_encode p = Some (eencode (emul x' ebase)) -> x' = x.
Proof. exact Structure.key_log. Qed.
Print Assumptions C74_secret_scalar.
Example C74_case : exists p, bytes (eencode ebase) /\ denotes (eencode ebase) ebase /\ eddsa_like_decode (eencode ebase) = Some (Ok p) /\ on_curve Samples.point2 /\
  on_curve (eadd ebase Samples.point2).
Proof. exact Samples4.log_case. Qed.

(* C75 is false: nine strings of small order are accepted as public keys, each with a signature on every message *)
Theorem C75_small_order_refuted : forall xof, is_xof xof -> forall pub, In pub small_encodings -> pub <> repeat 0 57 ->
  exists sig, length sig = 114%nat /\ bytes sig /\ forall message, ed448_verify xof pub sig message = Some (Ok true).
Proof. exact SmallKeys.small_forgery. Qed.
Print Assumptions C75_small_order_refuted.
(* these and the all-zero string are all of them *)
Theorem C75_small_encodings : forall src, bytes src ->
  ((exists p A, eddsa_like_decode src = Some (Ok p) /\ denotes src A /\ emul 4 A = ezero) <-> In src small_encodings).
Proof. exact SmallKeys.small_keys. Qed.
Print Assumptions C75_small_encodings.
Theorem C75_ten : NoDup small_encodings /\ length small_encodings = 10%nat.
Proof. exact SmallKeys.small_distinct. Qed.
Print Assumptions C75_ten.
Example C75_case : In (repeat 0 56 ++ [128]) small_encodings /\ repeat 0 56 ++ [128] <> repeat 0 57 /\ bytes (repeat 0 56 ++ [128]) /\
  ~ In (eencode ebase) small_encodings.
Proof. exact Samples4.small_case. Qed.

(* C76: what is hashed *)
Theorem C76_derive_queries : forall H H', is_xof H -> is_xof H' -> forall key, length key = 57%nat -> bytes key ->
  agree H H' (derive_inputs key) -> ed448_derive_public H key = ed448_derive_public H' key.
Proof. exact Queries.derive_queries. Qed.
Print Assumptions C76_derive_queries.
Theorem C76_sign_queries : forall H H', is_xof H -> is_xof H' -> forall key message, length key = 57%nat -> bytes key ->
  agree H H' (sign_inputs H key message) -> ed448_sign H key message = ed448_sign H' key message.
Proof. exact Queries.sign_queries. Qed.
Print Assumptions C76_sign_queries.
Theorem C76_verify_queries : forall H H', is_xof H -> is_xof H' -> forall pub sig message A, bytes pub -> denotes pub A ->
  agree H H' (verify_inputs A sig message) -> ed448_verify H pub sig message = ed448_verify H' pub sig message.
Proof. exact Queries.verify_queries. Qed.
Print Assumptions C76_verify_queries.
Example C76_case : is_xof Samples.xof1 /\ is_xof Samples4.xof7 /\ Samples.xof1 [7] 114%nat <> Samples4.xof7 [7] 114%nat /\
  length Samples.seed = 57%nat /\ bytes Samples.seed /\ enc_sign Samples.seed = false /\
  length Samples.key4 = 57%nat /\ bytes Samples.key4 /\ enc_sign Samples.key4 = true /\ bytes (eencode ebase) /\ denotes (eencode ebase) ebase /\ forall message,
  agree Samples.xof1 Samples4.xof7 (derive_inputs Samples.seed) /\ agree Samples.xof1 Samples4.xof7 (sign_inputs Samples.xof1 Samples.seed message) /\
  agree Samples.xof1 Samples4.xof7 (sign_inputs Samples.xof1 Samples.key4 message) /\ agree Samples.xof1 Samples4.xof7 (verify_inputs ebase Samples.sig2 message).
Proof. exact Samples4.queries_case. Qed.

(* C77: verification is one linear equation between discrete logarithms *)
Theorem C77_linear : forall A R x r S k, on_curve A -> on_curve R -> subgroup_part A = emul x ebase -> subgroup_part R = emul r ebase ->
  (rfc_equation S R k A <-> S mod q448 = (r + k * x) mod q448).
Proof. exact Queries.equation_linear. Qed.
Print Assumptions C77_linear.
Theorem C77_verify : forall xof, is_xof xof -> forall pub sig message A R, bytes pub -> bytes sig -> (114 <= length sig)%nat -> ~ zero_input pub sig ->
  decodable pub -> decodable (firstn 57 sig) -> denotes pub A -> denotes (firstn 57 sig) R ->
  exists x r, 0 <= x < q448 /\ 0 <= r < q448 /\ subgroup_part A = emul x ebase /\ subgroup_part R = emul r ebase /\
  let k := rfc_challenge xof (firstn 57 sig) (eencode (emul x ebase)) message in
  let S := le_val (firstn 57 (skipn 57 sig)) in
  (S mod q448 = (r + k * x) mod q448 -> ed448_verify xof pub sig message = Some (Ok true)) /\
  (ed448_verify xof pub sig message = Some (Ok true) -> S mod q448 = (r + k * x) mod q448 \/ false_positive xof pub sig message).
Proof. exact Queries.verify_linear. Qed.
Print Assumptions C77_verify.
Example C77_case : bytes (eencode ebase) /\ bytes Samples.sig2 /\ length Samples.sig2 = 114%nat /\ ~ zero_input (eencode ebase) Samples.sig2 /\
  decodable (eencode ebase) /\ decodable (firstn 57 Samples.sig2) /\ denotes (eencode ebase) ebase /\ denotes (firstn 57 Samples.sig2) ebase /\
  firstn 57 Samples.sig2 <> repeat 0 57 /\ forall message, ed448_verify Samples.xof1 (eencode ebase) Samples.sig2 message = Some (Ok true).
Proof. exact Samples4.linear_case. Qed.

(* C78 is false: whoever knows the secret scalar can sign with an R of small order *)
Theorem C78_small_R_refuted : forall xof, is_xof xof -> forall key pub message Renc, length key = 57%nat -> bytes key ->
  ed448_derive_public xof key = Some pub -> decodable pub -> In Renc small_encodings ->
  let k := rfc_challenge xof Renc pub message in
  let sig := Renc ++ le_bytes 57 ((k * key_scalar xof key) mod q448) in
  sig <> repeat 0 114 -> ed448_verify xof pub sig message = Some (Ok true).
Proof. exact Transcripts.small_R. Qed.
Print Assumptions C78_small_R_refuted.
Theorem C78_reveals : forall xof, is_xof xof -> forall key pub sig message R, length key = 57%nat -> bytes key -> ed448_derive_public xof key = Some pub ->
  bytes sig -> denotes (firstn 57 sig) R -> emul 4 R = ezero -> ed448_verify xof pub sig message = Some (Ok true) ->
  let k := rfc_challenge xof (firstn 57 sig) pub message in
  le_val (firstn 57 (skipn 57 sig)) mod q448 = (k * key_scalar xof key) mod q448 \/ false_positive xof pub sig message.
Proof. exact Transcripts.small_R_reveals. Qed.
Print Assumptions C78_reveals.
Example C78_case : length Samples.key4 = 57%nat /\ bytes Samples.key4 /\ ed448_derive_public Samples.xof1 Samples.key4 = Some (eencode (emul 4 ebase)) /\
  decodable (eencode (emul 4 ebase)) /\ In (repeat 0 56 ++ [128]) small_encodings /\ (forall s, (repeat 0 56 ++ [128]) ++ s <> repeat 0 114) /\
  exists R, denotes (repeat 0 56 ++ [128]) R /\ emul 4 R = ezero.
Proof. exact Transcripts.small_R_case. Qed.

(* C79: the inputs of the hash *)
Theorem C79_distinct : forall H, is_xof H -> forall key message, length key = 57%nat -> NoDup (sign_inputs H key message).
Proof. exact Transcripts.sign_inputs_distinct. Qed.
Print Assumptions C79_distinct.
Theorem C79_sign_inputs : forall H, is_xof H -> forall key key' m m', sign_inputs H key m = sign_inputs H key' m' ->
  m = m' /\ sign_prefix H key = sign_prefix H key' /\ emul (key_scalar H key) ebase = emul (key_scalar H key') ebase.
Proof. exact Transcripts.sign_inputs_inj. Qed.
Print Assumptions C79_sign_inputs.
Theorem C79_verify_inputs : forall A A' sig sig' m m', on_curve A -> on_curve A' -> (57 <= length sig)%nat -> (57 <= length sig')%nat ->
  verify_inputs A sig m = verify_inputs A' sig' m' -> subgroup_part A = subgroup_part A' /\ firstn 57 sig = firstn 57 sig' /\ m = m'.
Proof. exact Transcripts.verify_input_inj. Qed.
Print Assumptions C79_verify_inputs.
Example C79_case : is_xof Samples.xof1 /\ length Samples.seed = 57%nat /\ on_curve ebase /\ on_curve (emul 4 ebase) /\ length Samples.sig2 = 114%nat.
Proof. exact Transcripts.inputs_case. Qed.

(* C80: how much work is done *)
Theorem C80_verify : forall xof, is_xof xof -> forall pub sig message r, bytes sig -> ed448_verify xof pub sig message = Some r ->
  exists t, c_ed448_verify xof pub sig message = Some (t, r) /\
  match r with
  | Ok _ => (1785 <= doublings t <= 2231)%nat /\ (423 <= additions t <= 576)%nat /\ hashings t = [((124 + length message)%nat, 114%nat)]
  | Err DecodeSignatureError => doublings t = 892%nat /\ additions t = 208%nat /\ hashings t = []
  | Err _ => t = []
  end.
Proof. exact CostProofs.verify_work. Qed.
Print Assumptions C80_verify.
Theorem C80_sign : forall xof, is_xof xof -> forall key message, length key = 57%nat -> bytes key -> exists t sig,
  c_ed448_sign xof key message = Some (t, sig) /\ ed448_sign xof key message = Some sig /\ doublings t = 34%nat /\ additions t = 178%nat /\
  hashings t = (if enc_sign key then [] else [(57%nat, 114%nat)]) ++ [((67 + length message)%nat, 114%nat); ((124 + length message)%nat, 114%nat)].
Proof. exact CostProofs.sign_work. Qed.
Print Assumptions C80_sign.
Theorem C80_derive : forall xof, is_xof xof -> forall key, length key = 57%nat -> bytes key -> exists t pub,
  c_ed448_derive_public xof key = Some (t, pub) /\ ed448_derive_public xof key = Some pub /\ doublings t = 17%nat /\ additions t = 89%nat /\
  hashings t = if enc_sign key then [] else [(57%nat, 57%nat)].
Proof. exact CostProofs.derive_work. Qed.
Print Assumptions C80_derive.
Theorem C80_erase : forall xof key message pub sig, option_map snd (c_ed448_sign xof key message) = ed448_sign xof key message /\
  option_map snd (c_ed448_derive_public xof key) = ed448_derive_public xof key /\
  option_map snd (c_ed448_verify xof pub sig message) = ed448_verify xof pub sig message.
Proof. exact CostProofs.erase. Qed.
Print Assumptions C80_erase.
Example C80_case : is_xof Samples.xof1 /\ bytes Samples.sig2 /\ ed448_verify Samples.xof1 (eencode ebase) Samples.sig2 [] = Some (Ok true).
Proof. exact CostCases.verify_case. Qed.
Example C80_case_keys : length Samples.seed = 57%nat /\ bytes Samples.seed /\ enc_sign Samples.seed = false /\
  length Samples.key4 = 57%nat /\ bytes Samples.key4 /\ enc_sign Samples.key4 = true.
Proof. exact CostCases.keys_case. Qed.
Example C80_case_largest : sc CostProofs.top_scalar = q448 - 1 /\
  option_map (fun r => nth 0 (fst r) smvt_new) (recode_wnaf (repeat smvt_new 77) CostProofs.top_scalar 5) = Some (Smvt 446 1).
Proof. exact CostProofs.top_case. Qed.

(* C81: of the strings of 114 bytes, how many give the scalar s; the distance from the uniform distribution, for every set f of scalars *)
Theorem C81_hits : forall s, 0 <= s < q448 ->
  tally (fun h => match decode_long h with Some r => s =? sc r | None => false end) (strings 114) =
  256 ^ 114 / q448 + (if s <? 256 ^ 114 mod q448 then 1 else 0).
Proof. exact Unbias.hits. Qed.
Print Assumptions C81_hits.
Theorem C81_distance : forall f : Z -> bool,
  Z.abs (q448 * tally (fun h => match decode_long h with Some r => f (sc r) | None => false end) (strings 114) - 256 ^ 114 * tally f (below q448)) * 2 ^ 466
  <= q448 * 256 ^ 114.
Proof. exact Unbias.distance. Qed.
Print Assumptions C81_distance.
(* every public key comes from the same number of digests of seeds *)
Theorem C81_digests : forall t, 0 <= t < 2 ^ 445 ->
  tally (fun h => match secret_to_public h with Some pub => same_string pub (eencode (emul (2 ^ 447 + 4 * t) ebase)) | None => false end) (strings 57) = 2048.
Proof. exact Unbias.digests. Qed.
Print Assumptions C81_digests.
(* the numbers are not even, the bound is not far *)
Example C81_case : 0 < 256 ^ 114 mod q448 < q448 - 1 /\ 2 ^ 465 < 256 ^ 114 / q448.
Proof. exact Unbias.case. Qed.

(* C82: r_f is f in a build without overflow checks *)
Theorem C82_verify : forall xof, is_xof xof -> forall pub sig message, bytes pub -> bytes sig ->
  r_ed448_verify xof pub sig message = ed448_verify xof pub sig message /\
  r_ed448_verify_with_error xof pub sig message = ed448_verify_with_error xof pub sig message.
Proof. exact ReleaseApi.verify_release. Qed.
Print Assumptions C82_verify.
Theorem C82_keys : forall xof, is_xof xof -> forall k v message, length k = 57%nat -> bytes k -> length v = 57%nat ->
  r_ed448_derive_public xof k = ed448_derive_public xof k /\ r_ed448_sign xof k message = ed448_sign xof k message /\
  r_private_to_public xof k = private_to_public xof k /\ r_sign_by_private xof k message = sign_by_private xof k message /\
  r_point_by_secret k = point_by_secret k /\ r_secret_to_public k = secret_to_public k /\
  (forall nonce, r_sign_with_secret_and_nonce xof k nonce message = sign_with_secret_and_nonce xof k nonce message) /\
  r_signing_from_secret xof (SecretKey k) = signing_from_secret xof (SecretKey k) /\ r_signing_random xof k = signing_random xof k /\
  r_sign_prehash xof (SigningKey (SecretKey k) (VerifyingKey v)) message = sign_prehash xof (SigningKey (SecretKey k) (VerifyingKey v)) message.
Proof. exact ReleaseApi.keys_release. Qed.
Print Assumptions C82_keys.
Theorem C82_inputs : forall xof, is_xof xof -> forall s f i,
  r_signing_from_str xof s = signing_from_str xof s /\ r_signing_deserialize xof f i = signing_deserialize xof f i /\
  (bytes s -> r_signing_from_slice xof s = signing_from_slice xof s /\ r_signing_from_bytes xof s = signing_from_bytes xof s).
Proof. exact ReleaseApi.input_release. Qed.
Print Assumptions C82_inputs.
(* the arithmetic of the release model *)
Theorem C82_wraps : (forall z, r_chk_u32 z = Some (wrap32 z) /\ r_chk_u64 z = Some (wrap64 z) /\ r_chk_usize z = Some (wrap64 z) /\ r_chk_i64 z = Some (as_i64 (wrap64 z))) /\
  wraps_into wrap32 0 (2 ^ 32) /\ wraps_into wrap64 0 (2 ^ 64) /\ wraps_into (fun z => as_i64 (wrap64 z)) (- 2 ^ 63) (2 ^ 63) /\
  (forall x y, wadd32 x y = wrap32 (x + y) /\ wsub32 x y = wrap32 (x - y) /\ wmul32 x y = wrap32 (x * y) /\
    wadd64 x y = wrap64 (x + y) /\ wsub64 x y = wrap64 (x - y) /\ wmul64 x y = wrap64 (x * y) /\ wsub_i64 x y = as_i64 (wrap64 (x - y)) /\ not32 x = 2 ^ 32 - 1 - x) /\
  (forall x n, 0 <= n -> shl32 x n = wrap32 (x * 2 ^ n) /\ shl64 x n = wrap64 (x * 2 ^ n)).
Proof. exact (conj Traps.release_wraps Traps.wrapping). Qed.
Print Assumptions C82_wraps.
Example C82_case : length Samples.seed = 57%nat /\ bytes Samples.seed /\ length Samples.key4 = 57%nat /\ bytes Samples.key4.
Proof. exact (match CostCases.keys_case with conj a (conj b (conj _ (conj c (conj d _)))) => conj a (conj b (conj c d)) end). Qed.
(* the builds do differ inside: a bias which does not fit *)
Example C82_case_differ : bias BIG_ZERO 17 = None /\ r_bias BIG_ZERO 17 <> None.
Proof. exact ReleaseApi.release_case. Qed.

(* C83: w_f is f on a target whose usize has 32 bits *)
Theorem C83_verify : forall xof, is_xof xof -> forall pub sig message, bytes pub -> bytes sig ->
  w_ed448_verify xof pub sig message = ed448_verify xof pub sig message /\
  w_ed448_verify_with_error xof pub sig message = ed448_verify_with_error xof pub sig message.
Proof. exact TargetApi.verify_target. Qed.
Print Assumptions C83_verify.
Theorem C83_keys : forall xof, is_xof xof -> forall k v message, length k = 57%nat -> bytes k -> length v = 57%nat ->
  w_ed448_derive_public xof k = ed448_derive_public xof k /\ w_ed448_sign xof k message = ed448_sign xof k message /\
  w_private_to_public xof k = private_to_public xof k /\ w_sign_by_private xof k message = sign_by_private xof k message /\
  w_point_by_secret k = point_by_secret k /\ w_secret_to_public k = secret_to_public k /\
  (forall nonce, w_sign_with_secret_and_nonce xof k nonce message = sign_with_secret_and_nonce xof k nonce message) /\
  w_signing_from_secret xof (SecretKey k) = signing_from_secret xof (SecretKey k) /\ w_signing_random xof k = signing_random xof k /\
  w_sign_prehash xof (SigningKey (SecretKey k) (VerifyingKey v)) message = sign_prehash xof (SigningKey (SecretKey k) (VerifyingKey v)) message.
Proof. exact TargetApi.keys_target. Qed.
Print Assumptions C83_keys.
Theorem C83_inputs : forall xof, is_xof xof -> forall s f i,
  w_signing_from_str xof s = signing_from_str xof s /\ w_signing_deserialize xof f i = signing_deserialize xof f i /\
  (bytes s -> w_signing_from_slice xof s = signing_from_slice xof s /\ w_signing_from_bytes xof s = signing_from_bytes xof s).
Proof. exact TargetApi.input_target. Qed.
Print Assumptions C83_inputs.
(* the arithmetic of the 32-bit model *)
Theorem C83_usize : traps_outside w_chk_usize 0 (2 ^ 32) /\ forall a, w_usize_half a = a mod 2 ^ 32 / 2 /\ usize_half a = a mod 2 ^ 64 / 2.
Proof. exact Traps.narrow_checked. Qed.
Print Assumptions C83_usize.
Example C83_case : length Samples.seed = 57%nat /\ bytes Samples.seed /\ length Samples.key4 = 57%nat /\ bytes Samples.key4.
Proof. exact C82_case. Qed.
(* the targets do differ inside: casts to usize, and its overflow check *)
Example C83_case_differ : w_usize_half (2 ^ 32 + 6) = 3 /\ usize_half (2 ^ 32 + 6) = 2147483651 /\ w_chk_usize (2 ^ 32) = None /\ chk_usize (2 ^ 32) = Some (2 ^ 32).
Proof. exact TargetApi.target_case. Qed.

(* C84: rewinding a forger which asks the hash n times gives the discrete logarithm of the public key; N = 256^114 answers are
   equally likely, good is any test of its runs which end in a signature accepted by the equation *)
Theorem C84_forking : forall pub A, bytes pub -> denotes pub A -> forall n next finish (good : list (list Z) -> bool),
  let run := run A n next finish in let output := output A n next finish in
  (forall h, In h (vectors (strings 114) (S n)) -> good h = true ->
     bytes (fst (output h)) /\ (exists R, denotes (firstn 57 (fst (output h))) R) /\
     ed448_verify (table_xof (run h)) pub (fst (output h)) (snd (output h)) = Some (Ok true) /\
     ~ false_positive (table_xof (run h)) pub (fst (output h)) (snd (output h))) ->
  let wins := tally good (vectors (strings 114) (S n)) in
  wins * wins <= Z.of_nat (S n) *
    (tally (fun p => reveals A n next finish (fst p) (snd p)) (list_prod (vectors (strings 114) (S n)) (vectors (strings 114) (S n))) +
     wins * ((256 ^ 114) ^ Z.of_nat n * (256 ^ 114 / q448 + 1))).
Proof. exact Forger.bound. Qed.
Print Assumptions C84_forking.
Theorem C84_revealed_secret : forall xof, is_xof xof -> forall key pub A n next finish h h', length key = 57%nat -> bytes key ->
  ed448_derive_public xof key = Some pub -> rfc_decodes pub A ->
  reveals A n next finish h h' = true -> extracted A n next finish h h' = key_scalar xof key mod q448.
Proof. exact Forger.revealed_secret. Qed.
Print Assumptions C84_revealed_secret.
(* a forger which wins with all answers (it knows the logarithm) *)
Example C84_case : let next := ForgerCase.known_next in let finish := ForgerCase.known_finish in
  let run := run ebase 1 next finish in let output := output ebase 1 next finish in
  bytes (eencode ebase) /\ denotes (eencode ebase) ebase /\ forall h, In h (vectors (strings 114) 2) ->
  bytes (fst (output h)) /\ (exists R, denotes (firstn 57 (fst (output h))) R) /\
  ed448_verify (table_xof (run h)) (eencode ebase) (fst (output h)) (snd (output h)) = Some (Ok true) /\
  ~ false_positive (table_xof (run h)) (eencode ebase) (fst (output h)) (snd (output h)).
Proof. exact ForgerCase.known_case. Qed.

(* C85: a forger which is given the public key and may also ask the signer, over all seed keys, all answers of the hash and all coins: compared with
   the game in which the signatures are made from the public key only *)
Theorem C85_simulation : forall n next finish exact, let N := 256 ^ 114 in let L := N / q448 + 1 in let K := Z.of_nat (length seeds) in
  tally (fun w => real_game n next finish exact (fst w) (fst (snd w)) (snd (snd w)))
    (list_prod seeds (list_prod (strings 114) (vectors (list_prod (strings 114) (strings 114)) (S n)))) <=
  K * (L ^ Z.of_nat (S n) * tally (fun w => sim_game n next finish exact (emul (secret_scalar (fst w)) ebase) (snd w))
         (list_prod (strings 114) (vectors (list_prod (strings 114) (below q448)) (S n))) +
       N * (Z.of_nat n * Z.of_nat n * (L * N * (N * q448 * L) ^ Z.of_nat n))) +
  Z.of_nat (S n) * (N + K * 256 ^ 57) * (N * N) ^ Z.of_nat (S n).
Proof. exact GameReal.total. Qed.
Print Assumptions C85_simulation.
Theorem C85_seeds : (forall k, In k seeds <-> length k = 57%nat /\ bytes k /\ enc_sign k = false) /\ 2 * Z.of_nat (length seeds) = 256 ^ 57.
Proof. exact (conj GameReal.seeds_in GameReal.seeds_count). Qed.
Print Assumptions C85_seeds.
(* the simulated game, run twice *)
Theorem C85_forking : forall n next finish exact,
  (forall d a sig m, In d (strings 114) -> In a (strings 114) -> exact (eencode (emul (secret_scalar d) ebase)) a sig m = true ->
     bytes sig /\ (exists R, denotes (firstn 57 sig) R) /\
     ~ false_positive (table_xof [(forged_input (emul (secret_scalar d) ebase) (sig, m), a)]) (eencode (emul (secret_scalar d) ebase)) sig m) ->
  let coins := vectors (list_prod (strings 114) (below q448)) (S n) in
  let wins := tally (fun w => sim_game n next finish exact (emul (secret_scalar (fst w)) ebase) (snd w)) (list_prod (strings 114) coins) in
  wins * wins <= 256 ^ 114 * (Z.of_nat (S n) *
    (tally (fun w => sim_game_reveals n next finish (emul (secret_scalar (fst w)) ebase) (fst (snd w)) (snd (snd w))) (list_prod (strings 114) (list_prod coins coins)) +
     wins * ((256 ^ 114 * q448) ^ Z.of_nat n * (q448 * (256 ^ 114 / q448 + 1))))).
Proof. exact GameReal.average. Qed.
Print Assumptions C85_forking.
Theorem C85_revealed_secret : forall s n next finish h h',
  sim_game_reveals n next finish (emul s ebase) h h' = true -> sim_game_extracted n next finish (emul s ebase) h h' = s mod q448.
Proof. exact GameReal.game_secret. Qed.
Print Assumptions C85_revealed_secret.
(* the equation of RFC 8032 as the condition on forgeries *)
Theorem C85_rfc_condition : forall A, on_curve A -> subgroup_part A = A -> forall a sig m, In a (strings 114) ->
  GameCase.rfc_test (eencode A) a sig m = true ->
  bytes sig /\ (exists R, denotes (firstn 57 sig) R) /\ ~ false_positive (table_xof [(forged_input A (sig, m), a)]) (eencode A) sig m.
Proof. exact GameCase.rfc_test_exact. Qed.
Print Assumptions C85_rfc_condition.
(* the forgeries which do not count, with an R given out for the message, have the S given out modulo q *)
Theorem C85_given_R : forall A a sig sig' m, on_curve A -> GameCase.rfc_test (eencode A) a sig m = true -> GameCase.rfc_test (eencode A) a sig' m = true ->
  firstn 57 sig = firstn 57 sig' -> le_val (firstn 57 (skipn 57 sig)) mod q448 = le_val (firstn 57 (skipn 57 sig')) mod q448.
Proof. exact GameCase.rfc_test_unique. Qed.
Print Assumptions C85_given_R.
(* a forger which asks for a signature of [1] and forges m (it knows the logarithm): another message, or the same one with another R *)
Example C85_case : forall m h, In h (vectors (list_prod (strings 114) (below q448)) 3) ->
  m <> [1] \/ (snd (nth 0 h ([], 0)) - le_val (fst (nth 0 h ([], 0)))) mod q448 <> 1 ->
  sim_game 2 (fun _ => GameCase.signer_next m) (fun _ => GameCase.signer_finish m) GameCase.rfc_test ebase h = true.
Proof. exact GameCase.signer_wins. Qed.

(* C86: an honest signature is refused for at most one in 2^30 of the random answers of the hash.  seed_run hashes the key
   to fst w and the input of the nonce to snd w; T is the rest of the hash. *)
Theorem C86_seed_complete : forall key m T, In key seeds -> (forall x a, In (x, a) T -> bytes a) ->
  2 ^ 30 * tally (fun w => negb (seed_run key m T w)) (list_prod (strings 114) (strings 114)) <= 256 ^ 228.
Proof. exact Complete.seed_complete. Qed.
Print Assumptions C86_seed_complete.
(* keys which are the secret scalar: over all of them and the answer for the nonce *)
Theorem C86_expanded_complete : forall m T, (forall x a, In (x, a) T -> bytes a) ->
  2 ^ 30 * tally (fun w => negb (expanded_run m T w)) (list_prod expanded (strings 114)) <= 2 ^ 455 * 256 ^ 114.
Proof. exact Complete.expanded_complete. Qed.
Print Assumptions C86_expanded_complete.
Theorem C86_expanded_count : Z.of_nat (length expanded) = 2 ^ 455.
Proof. exact Complete.expanded_total. Qed.
Print Assumptions C86_expanded_count.
(* of the q multiples of B, how many encodings the decoder refuses *)
Theorem C86_refused_multiples :
  tally (fun r => match eddsa_like_decode (eencode (emul r ebase)) with Some (Ok _) => false | _ => true end) (below q448) <= 2 * (2113536 * 2 ^ 392) + 2 ^ 32.
Proof. exact Complete.refused_multiples. Qed.
Print Assumptions C86_refused_multiples.
(* runs of both kinds occur *)
Example C86_case : forall m T, (forall x a, In (x, a) T -> bytes a) ->
  let bad := CompleteCase.digest Witness.bad_key in let good := CompleteCase.digest Samples.key4 in let one := CompleteCase.nonce_one in
  In Samples.seed seeds /\ In bad (strings 114) /\ In good (strings 114) /\ In one (strings 114) /\
  seed_run Samples.seed m T (bad, one) = false /\ seed_run Samples.seed m T (good, one) = true /\
  In Witness.bad_key expanded /\ In Samples.key4 expanded /\
  expanded_run m T (Witness.bad_key, one) = false /\ expanded_run m T (Samples.key4, one) = true.
Proof. exact CompleteCase.cases. Qed.

(* C87: the forger of C85 against a key which is the secret scalar itself; the input of a nonce then holds the secret, and
   sim_reads says that some question for the hash does (sim_guess reads it) *)
Theorem C87_simulation : forall n next finish exact key, In key expanded ->
  let A := emul (secret_scalar key) ebase in let N := 256 ^ 114 in let L := N / q448 + 1 in let coins := vectors (list_prod (strings 114) (below q448)) (S n) in
  tally (real_expanded n next finish exact key) (vectors (list_prod (strings 114) (strings 114)) (S n)) <=
  L ^ Z.of_nat (S n) * (tally (sim_wins n next finish exact A) coins + tally (sim_reads n next finish A) coins) +
  Z.of_nat n * Z.of_nat n * (L * N * (N * q448 * L) ^ Z.of_nat n).
Proof. exact GameExpanded.expanded_simulation. Qed.
Print Assumptions C87_simulation.
Theorem C87_read_secret : forall s n next finish h,
  sim_reads n next finish (emul s ebase) h = true -> sim_guess n next finish (emul s ebase) h = s mod q448.
Proof. exact GameExpanded.expanded_secret. Qed.
Print Assumptions C87_read_secret.
(* the simulated game run twice, for each public key *)
Theorem C87_forking : forall s n next finish exact,
  (forall a sig m, In a (strings 114) -> exact (eencode (emul s ebase)) a sig m = true -> bytes sig /\ (exists R, denotes (firstn 57 sig) R) /\
    ~ false_positive (table_xof [(forged_input (emul s ebase) (sig, m), a)]) (eencode (emul s ebase)) sig m) ->
  let coins := vectors (list_prod (strings 114) (below q448)) (S n) in let wins := tally (sim_wins n next finish exact (emul s ebase)) coins in
  wins * wins <= Z.of_nat (S n) * (tally (fun p => sim_reveals n next finish (emul s ebase) (fst p) (snd p)) (list_prod coins coins) +
    wins * ((256 ^ 114 * q448) ^ Z.of_nat n * (q448 * (256 ^ 114 / q448 + 1)))).
Proof. exact GameExpanded.expanded_forking. Qed.
Print Assumptions C87_forking.
(* a forger which knows the secret and asks for the input of a nonce *)
Example C87_case : In Samples.key4 expanded /\
  (forall h, In h (vectors (list_prod (strings 114) (strings 114)) 3) ->
     real_expanded 2 GameExpandedCase.four_next GameExpandedCase.four_finish GameCase.rfc_test Samples.key4 h = true) /\
  (forall h, In h (vectors (list_prod (strings 114) (below q448)) 3) ->
     sim_wins 2 GameExpandedCase.four_next GameExpandedCase.four_finish GameCase.rfc_test (emul (secret_scalar Samples.key4) ebase) h = true /\
     sim_reads 2 GameExpandedCase.four_next GameExpandedCase.four_finish (emul (secret_scalar Samples.key4) ebase) h = true).
Proof. exact (conj GameExpandedCase.key4_expanded (conj GameExpandedCase.four_real GameExpandedCase.four_sim)). Qed.

(* C88: the messages ms differ, h holds the answers of the hash for the inputs of their nonces, T is the rest of the hash;
   the_R is the first half of the signature *)
Theorem C88_seed_nonces : forall key d T ms, In key seeds -> In d (strings 114) -> (forall x a, In (x, a) T -> bytes a) -> NoDup ms ->
  let n := Z.of_nat (length ms) in let N := 256 ^ 114 in
  2 * N * tally (fun h => repeats (map (Repeat.the_R (table_xof ((key, d) :: combine (map (fun m => rfc_dom ++ skipn 57 d ++ m) ms) h ++ T)) key) ms))
            (vectors (strings 114) (length ms)) <= n * (n - 1) * (256 ^ 114 / q448 + 1) * N ^ n.
Proof. exact Repeat.seed_nonces. Qed.
Print Assumptions C88_seed_nonces.
Theorem C88_expanded_nonces : forall key T ms, In key expanded -> (forall x a, In (x, a) T -> bytes a) -> NoDup ms ->
  let n := Z.of_nat (length ms) in let N := 256 ^ 114 in
  2 * N * tally (fun h => repeats (map (Repeat.the_R (table_xof (combine (map (fun m => rfc_dom ++ le_bytes 57 (secret_scalar key) ++ m) ms) h ++ T)) key) ms))
            (vectors (strings 114) (length ms)) <= n * (n - 1) * (256 ^ 114 / q448 + 1) * N ^ n.
Proof. exact Repeat.expanded_nonces. Qed.
Print Assumptions C88_expanded_nonces.
Theorem C88_repeats : forall l, repeats l = false <-> NoDup l.
Proof. exact Repeat.repeats_iff. Qed.
Print Assumptions C88_repeats.
(* answers with and without a repetition *)
Example C88_case : forall T, (forall x a, In (x, a) T -> bytes a) ->
  let one := RepeatCase.one in let two := RepeatCase.two in let ms := RepeatCase.texts in
  let run h := map (Repeat.the_R (table_xof ((Samples.seed, one) :: combine (map (fun m => rfc_dom ++ skipn 57 one ++ m) ms) h ++ T)) Samples.seed) ms in
  In Samples.seed seeds /\ In one (strings 114) /\ NoDup ms /\ In [one; one] (vectors (strings 114) 2) /\ In [one; two] (vectors (strings 114) 2) /\
  repeats (run [one; one]) = true /\ repeats (run [one; two]) = false.
Proof. exact RepeatCase.seed_case. Qed.
Example C88_expanded_case : forall T, (forall x a, In (x, a) T -> bytes a) ->
  let one := RepeatCase.one in let two := RepeatCase.two in let ms := RepeatCase.texts in
  let run h := map (Repeat.the_R (table_xof (combine (map (fun m => rfc_dom ++ le_bytes 57 (secret_scalar Samples.key4) ++ m) ms) h ++ T)) Samples.key4) ms in
  In Samples.key4 expanded /\ repeats (run [one; one]) = true /\ repeats (run [one; two]) = false.
Proof. exact RepeatCase.expanded_case. Qed.

(* C89: w holds the bytes of the generator for each key and the answer of the hash for them; the_key is the verifying key of
   SigningKey::random *)
Theorem C89_generated_keys : forall n T, (forall x a, In (x, a) T -> bytes a) ->
  2 ^ 457 * tally (fun w => repeats (map (Repeat.the_key (table_xof (w ++ T))) (map fst w))) (vectors (list_prod (strings 57) (strings 114)) n) <=
  Z.of_nat n * (Z.of_nat n - 1) * (2 ^ 11 + 1) * (256 ^ 57 * 256 ^ 114) ^ Z.of_nat n.
Proof. exact Repeat.generated_keys. Qed.
Print Assumptions C89_generated_keys.
Example C89_case : forall T, (forall x a, In (x, a) T -> bytes a) ->
  let run w := map (Repeat.the_key (table_xof (w ++ T))) (map fst w) in
  let some := (Samples.key4, RepeatCase.one) in let other := (Witness.zero_key, RepeatCase.one) in
  In [some; some] (vectors (list_prod (strings 57) (strings 114)) 2) /\ In [some; other] (vectors (list_prod (strings 57) (strings 114)) 2) /\
  repeats (run [some; some]) = true /\ repeats (run [some; other]) = false.
Proof. exact RepeatCase.keys_case. Qed.

(* C90: the table of odd multiples, for every table and size; the result holds the table and the point afterwards *)
Theorem C90_table : forall dst p ts Q, represents p Q -> 0 <= ts < 64 -> (if ts =? 0 then (1 <= length dst)%nat else (2 <= length dst)%nat) ->
  exists dst' p', prepare_table dst p ts = Some (dst', p') /\ length dst' = length dst /\
    (forall i e, Z.of_nat i < 2 ^ ts -> nth_error dst' i = Some e -> projective_entry e (emul (2 * Z.of_nat i + 1) Q)) /\
    (forall i, 2 ^ ts <= Z.of_nat i -> nth_error dst' i = nth_error dst i) /\
    represents p' (emul (2 * Z.min (2 ^ ts) (Z.of_nat (length dst)) - 1) Q).
Proof. exact PrepareProofs.table. Qed.
Print Assumptions C90_table.
Theorem C90_panics : forall dst p ts, (length dst = 0%nat \/ ts <> 0 /\ length dst = 1%nat \/ ts < 0 \/ 64 <= ts) -> prepare_table dst p ts = None.
Proof. exact PrepareProofs.panics. Qed.
Print Assumptions C90_panics.
(* the call made by the double multiplication, as modelled in ExtendedPoint.v *)
Theorem C90_only_call : forall dst p, length dst = 8%nat ->
  match prepare_table dst p 3 with Some (l, _) => Some l | None => None end = decaf_prepare_wnaf_table p.
Proof. exact PrepareProofs.only_call. Qed.
Print Assumptions C90_only_call.
Example C90_case : (exists p, represents p ebase) /\ 0 <= 3 < 64 /\ (if 3 =? 0 then (1 <= length (repeat pniels_new 8))%nat else (2 <= length (repeat pniels_new 8))%nat).
Proof. split; [ exact (proj1 Samples.multiplication_case) | ]. split; [ split; [ discriminate | reflexivity ] | ]. apply Nat.leb_le. reflexivity. Qed.

(* C91: h is the answer of the hash for the input of the nonce, a the one for the challenge, T the rest of the hash.  For every
   set W of signatures with their challenges: the share of the signatures in W that the signer makes, and the share of those made from
   the point A of the public key *)
Theorem C91_seed_disclosed : forall key d m T (W : list Z -> list Z -> bool), In key seeds -> In d (strings 114) -> (forall x a, In (x, a) T -> bytes a) ->
  let A := emul (secret_scalar d) ebase in
  let hash h a := table_xof ((key, d) :: (rfc_dom ++ skipn 57 d ++ m, h) :: (rfc_dom ++ eencode (emul (le_val h) ebase) ++ eencode A ++ m, a) :: T) in
  let made := tally (fun w => match ed448_sign (hash (fst w) (snd w)) key m with Some sig => W sig (snd w) | None => false end) (list_prod (strings 114) (strings 114)) in
  let copied := tally (fun w => W (eencode (eadd (emul (fst w) ebase) (eneg (emul (le_val (snd w)) A))) ++ le_bytes 57 (fst w)) (snd w)) (list_prod (below q448) (strings 114)) in
  Z.abs (q448 * made - 256 ^ 114 * copied) * 2 ^ 466 <= q448 * 256 ^ 114 * 256 ^ 114.
Proof. exact Disclose.seed_disclosed. Qed.
Print Assumptions C91_seed_disclosed.
Theorem C91_expanded_disclosed : forall key m T (W : list Z -> list Z -> bool), In key expanded -> (forall x a, In (x, a) T -> bytes a) ->
  let A := emul (secret_scalar key) ebase in
  let hash h a := table_xof ((rfc_dom ++ le_bytes 57 (secret_scalar key) ++ m, h) :: (rfc_dom ++ eencode (emul (le_val h) ebase) ++ eencode A ++ m, a) :: T) in
  let made := tally (fun w => match ed448_sign (hash (fst w) (snd w)) key m with Some sig => W sig (snd w) | None => false end) (list_prod (strings 114) (strings 114)) in
  let copied := tally (fun w => W (eencode (eadd (emul (fst w) ebase) (eneg (emul (le_val (snd w)) A))) ++ le_bytes 57 (fst w)) (snd w)) (list_prod (below q448) (strings 114)) in
  Z.abs (q448 * made - 256 ^ 114 * copied) * 2 ^ 466 <= q448 * 256 ^ 114 * 256 ^ 114.
Proof. exact Disclose.expanded_disclosed. Qed.
Print Assumptions C91_expanded_disclosed.
(* nonce 1 and challenge 2, made and copied *)
Example C91_case : forall m T, (forall x a, In (x, a) T -> bytes a) -> let one := RepeatCase.one in let two := RepeatCase.two in let s := secret_scalar one in
  In Samples.seed seeds /\ In one (strings 114) /\ In two (strings 114) /\
  ed448_sign (table_xof ((Samples.seed, one) :: (rfc_dom ++ skipn 57 one ++ m, one) :: (rfc_dom ++ eencode ebase ++ eencode (emul s ebase) ++ m, two) :: T)) Samples.seed m =
    Some (eencode ebase ++ le_bytes 57 ((1 + 2 * s) mod q448)) /\
  In ((1 + 2 * s) mod q448) (below q448) /\ eadd (emul ((1 + 2 * s) mod q448) ebase) (eneg (emul 2 (emul s ebase))) = ebase.
Proof. exact DiscloseCase.seed_case. Qed.
Example C91_expanded_case : forall m T, (forall x a, In (x, a) T -> bytes a) -> let s := secret_scalar Samples.key4 in In Samples.key4 expanded /\
  ed448_sign (table_xof ((rfc_dom ++ le_bytes 57 s ++ m, RepeatCase.one) :: (rfc_dom ++ eencode ebase ++ eencode (emul s ebase) ++ m, RepeatCase.two) :: T)) Samples.key4 m =
    Some (eencode ebase ++ le_bytes 57 ((1 + 2 * s) mod q448)).
Proof. exact DiscloseCase.expanded_case. Qed.

(* C92: v is any stored public key *)
Theorem C92_stored_key : forall xof, is_xof xof -> forall k v message, length k = 57%nat -> bytes k -> length v = 57%nat ->
  exists sig, ed448_sign xof k message = Some sig /\ length sig = 114%nat /\
    sign_prehash xof (SigningKey (SecretKey k) (VerifyingKey v)) message = Some (Ok (Signature (sig ++ v))).
Proof. exact DiscloseCase.stored_key. Qed.
Print Assumptions C92_stored_key.
Example C92_case : length Samples.seed = 57%nat /\ bytes Samples.seed /\ length (eencode ebase) = 57%nat.
Proof. exact (conj (proj1 Samples.seed_ok) (conj (proj1 (proj2 Samples.seed_ok)) (DiscloseCase.base_length))). Qed.

(* C93: the addresses of the table entries that are read *)
Theorem C93_signing : forall xof, is_xof xof -> forall key message, length key = 57%nat -> bytes key -> exists t sig pub,
  t_ed448_sign xof key message = Some (t, sig) /\ ed448_sign xof key message = Some sig /\ ed448_derive_public xof key = Some pub /\
  let a := firstn 90 (lookups t) in
  table_addresses (key_scalar xof key mod q448) = a /\ tally (fun r => same_string (table_addresses r) a) (below q448) <= 2 ^ 90 /\
  Z.of_nat (length (first_half a)) = 2 ^ 45 /\ Z.of_nat (length (second_half a)) = 2 ^ 45 /\
  (exists u v, In u (first_half a) /\ In v (second_half a) /\ eencode (eadd (emul (8 * u) ebase) (emul (8 * v - 4 * (2 ^ 450 - 1)) ebase)) = pub) /\
  forall u v, eencode (eadd (emul (8 * u) ebase) (emul (8 * v - 4 * (2 ^ 450 - 1)) ebase)) = pub -> scalar_of_number (u + v) = key_scalar xof key mod q448.
Proof. exact LeakKey.signing. Qed.
Print Assumptions C93_signing.
Theorem C93_derivation : forall xof, is_xof xof -> forall key, length key = 57%nat -> bytes key -> exists t pub,
  t_ed448_derive_public xof key = Some (t, pub) /\ ed448_derive_public xof key = Some pub /\
  let a := lookups t in
  table_addresses (key_scalar xof key mod q448) = a /\ tally (fun r => same_string (table_addresses r) a) (below q448) <= 2 ^ 90 /\
  Z.of_nat (length (first_half a)) = 2 ^ 45 /\ Z.of_nat (length (second_half a)) = 2 ^ 45 /\
  (exists u v, In u (first_half a) /\ In v (second_half a) /\ eencode (eadd (emul (8 * u) ebase) (emul (8 * v - 4 * (2 ^ 450 - 1)) ebase)) = pub) /\
  forall u v, eencode (eadd (emul (8 * u) ebase) (emul (8 * v - 4 * (2 ^ 450 - 1)) ebase)) = pub -> scalar_of_number (u + v) = key_scalar xof key mod q448.
Proof. exact LeakKey.derivation. Qed.
Print Assumptions C93_derivation.
(* two scalars which read the same entries *)
Example C93_case : In LeakKey.low (below q448) /\ In LeakKey.high (below q448) /\ comb_number LeakKey.low = 0 /\ comb_number LeakKey.high = 1 + 2 ^ 18 + 2 ^ 36 + 2 ^ 54 + 2 ^ 72 /\
  table_addresses LeakKey.low = table_addresses LeakKey.high.
Proof. exact LeakKey.same_case. Qed.

(* C94: rates.  A forger with fewer than 2^t questions; seed keys: all keys, their digests and all answers of the hash *)
Theorem C94_seed_keys : forall n next finish t k, 0 <= t -> 0 <= k -> k + 2 * t <= 444 -> Z.of_nat (S n) <= 2 ^ t ->
  let games := list_prod seeds (list_prod (strings 114) (vectors (list_prod (strings 114) (strings 114)) (S n))) in
  let coins := vectors (list_prod (strings 114) (below q448)) (S n) in
  let pairs := list_prod (strings 114) (list_prod coins coins) in
  2 ^ (2 * k + t) * tally (fun w => sim_game_reveals n next finish (emul (secret_scalar (fst w)) ebase) (fst (snd w)) (snd (snd w))) pairs <= Z.of_nat (length pairs) ->
  2 ^ k * tally (fun w => real_game n next finish GameCase.rfc_test (fst w) (fst (snd w)) (snd (snd w))) games <= 6 * Z.of_nat (length games).
Proof. exact Advantage.seeds_rfc. Qed.
Print Assumptions C94_seed_keys.
(* a key which is the secret scalar *)
Theorem C94_expanded_keys : forall n next finish t k key, In key expanded ->
  let A := emul (secret_scalar key) ebase in
  0 <= t -> 0 <= k -> k + 2 * t <= 444 -> Z.of_nat (S n) <= 2 ^ t ->
  let games := vectors (list_prod (strings 114) (strings 114)) (S n) in
  let coins := vectors (list_prod (strings 114) (below q448)) (S n) in
  let pairs := list_prod coins coins in
  2 ^ (2 * k + t) * tally (fun p => sim_reveals n next finish A (fst p) (snd p)) pairs <= Z.of_nat (length pairs) ->
  2 ^ k * tally (sim_reads n next finish A) coins <= Z.of_nat (length coins) ->
  2 ^ k * tally (real_expanded n next finish GameCase.rfc_test key) games <= 9 * Z.of_nat (length games).
Proof. exact Advantage.expanded_rfc. Qed.
Print Assumptions C94_expanded_keys.
(* which forgeries rfc_test leaves out *)
Theorem C94_counted : forall xof, is_xof xof -> forall A, on_curve A -> subgroup_part A = A -> forall sig m R, bytes sig -> denotes (firstn 57 sig) R ->
  ed448_verify xof (eencode A) sig m = Some (Ok true) -> ~ false_positive xof (eencode A) sig m ->
  GameCase.rfc_test (eencode A) (xof (forged_input A (sig, m)) 114%nat) sig m = true.
Proof. exact Advantage.rfc_test_complete. Qed.
Print Assumptions C94_counted.
(* a forger which hands in zeros *)
Example C94_case : forall n t k, 0 <= t -> 0 <= k -> 2 * k + t <= 445 ->
  let coins := vectors (list_prod (strings 114) (below q448)) (S n) in
  let pairs := list_prod (strings 114) (list_prod coins coins) in
  2 ^ (2 * k + t) * tally (fun w => sim_game_reveals n (fun _ => AdvantageCase.mute_next) (fun _ => AdvantageCase.mute_finish) (emul (secret_scalar (fst w)) ebase) (fst (snd w)) (snd (snd w))) pairs <=
  Z.of_nat (length pairs).
Proof. exact AdvantageCase.mute_seeds. Qed.
Example C94_expanded_case : forall n, let A := emul (secret_scalar Samples.key4) ebase in In Samples.key4 expanded /\
  (forall h h', sim_reveals n AdvantageCase.mute_next AdvantageCase.mute_finish A h h' = false) /\
  (forall h, sim_reads n AdvantageCase.mute_next AdvantageCase.mute_finish A h = false).
Proof. exact AdvantageCase.mute_expanded. Qed.

(* C95: W is any test of the public key and of the answers to n questions (each may depend on the answers before it).  games: all seed
   keys, their digests and all answers of the hash; runs: all coins of the simulator, for the public keys of all digests *)
Theorem C95_seed_keys : forall n next t k, 0 <= t -> 0 <= k -> k + 2 * t <= 444 -> Z.of_nat (S n) <= 2 ^ t -> forall W : sight -> bool,
  let games := list_prod seeds (list_prod (strings 114) (vectors (list_prod (strings 114) (strings 114)) (S n))) in
  let runs := list_prod (strings 114) (vectors (list_prod (strings 114) (below q448)) (S n)) in
  let real := tally (fun w => judge W (real_sight n next (fst w) (fst (snd w)) (snd (snd w)))) games in
  let simulated := tally (fun w => W (sim_sight n next (emul (secret_scalar (fst w)) ebase) (snd w))) runs in
  2 ^ k * Z.abs (real * Z.of_nat (length runs) - simulated * Z.of_nat (length games)) <= 3 * (Z.of_nat (length games) * Z.of_nat (length runs)).
Proof. exact Simulate.seeds_simulated. Qed.
Print Assumptions C95_seed_keys.
(* a key which is the secret scalar: up to the runs whose questions show it *)
Theorem C95_expanded_keys : forall n next key, In key expanded -> forall t k, 0 <= t -> 0 <= k -> k + 2 * t <= 444 -> Z.of_nat (S n) <= 2 ^ t -> forall W : sight -> bool,
  let A := emul (secret_scalar key) ebase in
  let games := vectors (list_prod (strings 114) (strings 114)) (S n) in
  let runs := vectors (list_prod (strings 114) (below q448)) (S n) in
  let real := tally (fun c => judge W (expanded_sight n next key c)) games in
  let simulated := tally (fun c => W (sim_sight n next A c)) runs in
  2 ^ k * (Z.abs (real * Z.of_nat (length runs) - simulated * Z.of_nat (length games)) - tally (sim_shows n next A) runs * Z.of_nat (length games)) <=
  3 * (Z.of_nat (length games) * Z.of_nat (length runs)).
Proof. exact Simulate.expanded_simulated. Qed.
Print Assumptions C95_expanded_keys.
Theorem C95_shown : forall s n next h, sim_shows n next (emul s ebase) h = true -> sim_shown n next (emul s ebase) h = s mod q448.
Proof. exact Simulate.shown_secret. Qed.
Print Assumptions C95_shown.
(* one signature with nonce 1 and challenge 2, made and simulated *)
Example C95_case : forall m, let s := secret_scalar RepeatCase.one in let ask := fun (_ : list Z) (_ : list (list Z)) => Sign m in
  let one := RepeatCase.one in let two := RepeatCase.two in
  let sig := eencode ebase ++ le_bytes 57 ((1 + 2 * s) mod q448) in
  In Samples.seed seeds /\ In one (strings 114) /\ In [(two, one); (one, one)] (vectors (list_prod (strings 114) (strings 114)) 2) /\
  real_sight 1 ask Samples.seed one [(two, one); (one, one)] = Some (eencode (emul s ebase), [sig]) /\
  In [(two, (1 + 2 * s) mod q448); (one, 0)] (vectors (list_prod (strings 114) (below q448)) 2) /\
  sim_sight 1 ask (emul s ebase) [(two, (1 + 2 * s) mod q448); (one, 0)] = (eencode (emul s ebase), [sig]).
Proof. exact SimulateCase.same_sight. Qed.
(* the part for the questions that show the key is needed: someone who knows Samples.key4 asks for the input of a nonce, and then for
   the signature; the test holds in all real games *)
Example C95_expanded_case : In Samples.key4 expanded /\
  (forall h, In h (vectors (list_prod (strings 114) (strings 114)) 3) -> judge SimulateCase.tells (expanded_sight 2 SimulateCase.knowing Samples.key4 h) = true) /\
  (forall h, In h (vectors (list_prod (strings 114) (below q448)) 3) -> sim_shows 2 SimulateCase.knowing (emul (secret_scalar Samples.key4) ebase) h = true).
Proof. exact (conj RepeatCase.key4_in (conj SimulateCase.told SimulateCase.told_shows)). Qed.

(* C96: guess is any function of the public key and the answers to n questions; with the secret part of the digest besides *)
Theorem C96_seed : forall n next (guess : sight -> list Z),
  let games := list_prod seeds (list_prod (strings 114) (vectors (list_prod (strings 114) (strings 114)) (S n))) in
  2 ^ 456 * tally (fun w => judge (fun v => same_string (guess v) (fst w)) (real_sight n next (fst w) (fst (snd w)) (snd (snd w)))) games <= (3 * Z.of_nat n + 5) * Z.of_nat (length games).
Proof. exact SeedSecret.seed_kept. Qed.
Print Assumptions C96_seed.
Theorem C96_prefix : forall n next (guess : sight -> list Z),
  let games := list_prod seeds (list_prod (strings 114) (vectors (list_prod (strings 114) (strings 114)) (S n))) in
  2 ^ 456 * tally (fun w => judge (fun v => same_string (guess v) (skipn 57 (fst (snd w)))) (real_sight n next (fst w) (fst (snd w)) (snd (snd w)))) games <= (3 * Z.of_nat n + 4) * Z.of_nat (length games).
Proof. exact SeedSecret.prefix_kept. Qed.
Print Assumptions C96_prefix.
(* whoever always guesses Samples.seed is right in all games with this seed *)
Example C96_case : forall n next d coins, In d (strings 114) -> In Samples.seed seeds /\
  judge (fun v => same_string ((fun _ => Samples.seed) v) Samples.seed) (real_sight n next Samples.seed d coins) = true.
Proof. exact (fun n next d coins I => conj RepeatCase.seed_in (SeedSecret.one_guess n next Samples.seed d coins RepeatCase.seed_in I)). Qed.

(* C97: the claims of any procedure that asks the hash n questions.  good: the answers for which the claim comes out, as far as the code
   of the comparison has not let a wrong equation through (C77) *)
Theorem C97_binding : forall n next finish (good : list (list Z) -> bool),
  (forall h, In h (vectors (strings 114) (S (S n))) -> good h = true ->
    let c := claimed n next finish h in let H := table_xof (claim_run n next finish h) in
    bytes (key1 c) /\ bytes (key2 c) /\ bytes (SpecBinding.signature c) /\ denotes (key1 c) (point1 c) /\ denotes (key2 c) (point2 c) /\
    (exists R, denotes (firstn 57 (SpecBinding.signature c)) R) /\
    ~ (subgroup_part (point1 c) = ezero /\ subgroup_part (point2 c) = ezero) /\
    ~ (subgroup_part (point1 c) = subgroup_part (point2 c) /\ message1 c = message2 c) /\
    ed448_verify H (key1 c) (SpecBinding.signature c) (message1 c) = Some (Ok true) /\ ~ false_positive H (key1 c) (SpecBinding.signature c) (message1 c) /\
    ed448_verify H (key2 c) (SpecBinding.signature c) (message2 c) = Some (Ok true) /\ ~ false_positive H (key2 c) (SpecBinding.signature c) (message2 c)) ->
  2 * tally good (vectors (strings 114) (S (S n))) <= (Z.of_nat n + 2) * (Z.of_nat n + 3) * (256 ^ 114 / q448 + 1) * (256 ^ 114) ^ (Z.of_nat n + 1).
Proof. exact Binding.binding_bound. Qed.
Print Assumptions C97_binding.
Theorem C97_rate : forall n next finish (good : list (list Z) -> bool) t,
  (forall h, In h (vectors (strings 114) (S (S n))) -> good h = true -> Binding.double_win n next finish h) ->
  0 <= t -> 2 * t <= 445 -> Z.of_nat n + 3 <= 2 ^ t -> 2 ^ (446 - 2 * t) * tally good (vectors (strings 114) (S (S n))) <= (256 ^ 114) ^ (Z.of_nat n + 2).
Proof. exact Binding.binding_rate. Qed.
Print Assumptions C97_rate.
(* such answers exist: R = B and S = 5, for two messages under B, and for one message under B and [4]B *)
Example C97_case : Binding.double_win 0 BindingCase.none BindingCase.two_messages [le_bytes 114 4; le_bytes 114 4] /\
  Binding.double_win 0 BindingCase.none BindingCase.two_keys [le_bytes 114 4; le_bytes 114 1] /\
  In [le_bytes 114 4; le_bytes 114 4] (vectors (strings 114) 2) /\ In [le_bytes 114 4; le_bytes 114 1] (vectors (strings 114) 2).
Proof. exact BindingCase.binding_case. Qed.

(* C98: the prefix of the nonces *)
Theorem C98_known_prefix : forall xof, is_xof xof -> forall key prefix pub m sig, length key = 57%nat -> bytes key -> secret_to_public key = Some pub ->
  sign_with_secret_and_nonce xof key prefix m = Some sig ->
  let k := rfc_challenge xof (firstn 57 sig) pub m in let v := le_val (skipn 57 sig) - le_val (xof (rfc_dom ++ prefix ++ m) 114%nat) in
  (k * secret_scalar key) mod q448 = v mod q448 /\
  (k mod q448 <> 0 -> forall x, 0 <= x < q448 -> (k * x) mod q448 = v mod q448 -> x = secret_scalar key mod q448).
Proof. exact Prefix.known_prefix. Qed.
Print Assumptions C98_known_prefix.
Theorem C98_known_prefix_key : forall xof, is_xof xof -> forall key pub m sig, length key = 57%nat -> bytes key -> ed448_derive_public xof key = Some pub ->
  ed448_sign xof key m = Some sig ->
  let prefix := if enc_sign key then le_bytes 57 (secret_scalar key) else skipn 57 (xof key 114%nat) in
  let k := rfc_challenge xof (firstn 57 sig) pub m in let v := le_val (skipn 57 sig) - le_val (xof (rfc_dom ++ prefix ++ m) 114%nat) in
  (k * key_scalar xof key) mod q448 = v mod q448 /\
  (k mod q448 <> 0 -> forall x, 0 <= x < q448 -> (k * x) mod q448 = v mod q448 -> x = key_scalar xof key mod q448).
Proof. exact Prefix.known_prefix_key. Qed.
Print Assumptions C98_known_prefix_key.
Theorem C98_shared_prefix : forall xof, is_xof xof -> forall key key' prefix pub pub' m sig sig',
  length key = 57%nat -> bytes key -> length key' = 57%nat -> bytes key' ->
  secret_to_public key = Some pub -> secret_to_public key' = Some pub' ->
  sign_with_secret_and_nonce xof key prefix m = Some sig -> sign_with_secret_and_nonce xof key' prefix m = Some sig' ->
  firstn 57 sig = firstn 57 sig' /\
  let k := rfc_challenge xof (firstn 57 sig) pub m in let k' := rfc_challenge xof (firstn 57 sig') pub' m in
  let v := le_val (skipn 57 sig) - le_val (skipn 57 sig') + k' * secret_scalar key' in
  (k * secret_scalar key) mod q448 = v mod q448 /\
  (k mod q448 <> 0 -> forall x, 0 <= x < q448 -> (k * x) mod q448 = v mod q448 -> x = secret_scalar key mod q448).
Proof. exact Prefix.shared_prefix. Qed.
Print Assumptions C98_shared_prefix.
Example C98_case : forall prefix m, is_xof Samples.xof1 /\ Samples.key4 <> Samples.seed /\ length Samples.key4 = 57%nat /\ bytes Samples.key4 /\
  length Samples.seed = 57%nat /\ bytes Samples.seed /\
  exists pub pub' sig sig', secret_to_public Samples.key4 = Some pub /\ secret_to_public Samples.seed = Some pub' /\
  sign_with_secret_and_nonce Samples.xof1 Samples.key4 prefix m = Some sig /\ sign_with_secret_and_nonce Samples.xof1 Samples.seed prefix m = Some sig' /\
  rfc_challenge Samples.xof1 (firstn 57 sig) pub m mod q448 <> 0.
Proof. exact Prefix.prefix_case. Qed.
