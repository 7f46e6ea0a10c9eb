(* Model of the work done: the functions of extended_point.rs, eddsa.rs and goldilocks.rs once more, returning
   besides their result the list of the point additions and doublings carried out and of the calls of
   the hash function.  Everything else (conversions, comparison, one inverse or square root for each
   encoding or decoding, the recoding of scalars, scalar arithmetic) happens once for each of these or
   for each call of the functions below, and is not counted: [quiet]. *)
From Coq Require Import ZArith List Bool.
From Verif Require Import Base Constants32 BigNumber ScalarModel Niels CombTable WnafTable Errors ExtendedPoint Eddsa Goldilocks.
Import ListNotations.
Open Scope Z_scope.

Inductive op : Set :=
| Doubling
| Addition                          (* addition or subtraction of a table entry *)
| Hashing (input output : nat).     (* Shake256 on that many bytes, producing that many *)

Definition counted (A : Type) : Type := option (list op * A).
Definition quiet {A : Type} (x : option A) : counted A := match x with Some a => Some ([], a) | None => None end.
Definition count {A : Type} (o : op) (x : option A) : counted A := match x with Some a => Some ([o], a) | None => None end.
Definition cbind {A B : Type} (x : counted A) (f : A -> counted B) : counted B :=
  match x with
  | Some (t, a) => match f a with Some (t', b) => Some (t ++ t', b) | None => None end
  | None => None
  end.
Declare Scope count_scope.
Notation "x <~ e ;; k" := (cbind e (fun x => k))
  (at level 61, e at next level, right associativity) : count_scope.
Open Scope count_scope.

(* extended_point.rs lines 102-186; the projected forms call the others *)
Definition c_double (p : point) (before_double : bool) : counted point := count Doubling (double_internal p before_double).
Definition c_add (p : point) (n : niels) (before_double : bool) : counted point := count Addition (add_niels_to_extended p n before_double).
Definition c_sub (p : point) (n : niels) (before_double : bool) : counted point := count Addition (sub_niels_from_extended_point p n before_double).
Definition c_padd (p : point) (n : pniels) (before_double : bool) : counted point := count Addition (add_projected_niels_to_extended p n before_double).
Definition c_psub (p : point) (n : pniels) (before_double : bool) : counted point := count Addition (sub_projected_niels_from_extended_point p n before_double).

(* extended_point.rs lines 253-256 *)
Fixpoint c_window_loop (n : nat) (p_original : point) (step : pniels) : counted (list pniels) :=
  match n with
  | O => quiet (Some [])
  | S n' =>
      p_original <~ c_padd p_original step false ;;
      e <~ quiet (to_projected_niels p_original) ;;
      r <~ c_window_loop n' p_original step ;;
      quiet (Some (e :: r))
  end.
(* extended_point.rs lines 244-259 *)
Definition c_prepare_fixed_window (p : point) : counted (list pniels) :=
  p_temp <~ c_double p false ;;
  step <~ quiet (to_projected_niels p_temp) ;;
  e <~ quiet (to_projected_niels p) ;;
  r <~ c_window_loop 15 p step ;;
  quiet (Some (e :: r)).
(* extended_point.rs lines 295-298 *)
Definition c_double5 (p : point) : counted point :=
  p <~ c_double p true ;;
  p <~ c_double p true ;;
  p <~ c_double p true ;;
  p <~ c_double p true ;;
  c_double p false.
(* extended_point.rs lines 277-303 *)
Fixpoint c_scalar_mul_loop (fuel : nat) (s : scalar) (multiples : list pniels) (i : Z)
  (out : option point) : counted (option point) :=
  if i >=? 0 then
    match fuel with
    | O => None
    | S f =>
        digit <~ quiet (window_digit s i) ;;
        let '(bits, inv) := digit in
        m <~ quiet (znth multiples (Z.land bits 15)) ;;
        n <~ quiet (niels_conditional_negate (pn m) inv) ;;
        let p_neg := PNiels n (pnz m) in
        out' <~ (match out with
                 | None => quiet (pniels_to_extended p_neg)
                 | Some o =>
                     o <~ c_double5 o ;;
                     c_padd o p_neg false
                 end) ;;
        c_scalar_mul_loop f s multiples (i - 5) (Some out')
    end
  else quiet (Some out).
(* extended_point.rs lines 261-305 *)
Definition c_point_scalar_mul (p : point) (s : scalar) : counted point :=
  scalar1x <~ quiet (sadd s scalar_adjustment) ;;
  let scalar1x := halve scalar1x in
  multiples <~ c_prepare_fixed_window p ;;
  r <~ c_scalar_mul_loop 100 scalar1x multiples
         (SCALAR_BITS - (SCALAR_BITS - 1) mod 5 - 1) None ;;
  match r with
  | Some out => quiet (Some out)
  | None => quiet (Some point_new)
  end.

(* extended_point.rs lines 505-508 *)
Fixpoint c_wnaf_loop (n : nat) (p : point) (tw_op : pniels) : counted (list pniels) :=
  match n with
  | O => quiet (Some [])
  | S n' =>
      p <~ c_padd p tw_op false ;;
      e <~ quiet (to_projected_niels p) ;;
      r <~ c_wnaf_loop n' p tw_op ;;
      quiet (Some (e :: r))
  end.
(* extended_point.rs lines 487-509 *)
Definition c_decaf_prepare_wnaf_table (p : point) : counted (list pniels) :=
  dst0 <~ quiet (to_projected_niels p) ;;
  p <~ c_double p false ;;
  tw_op <~ quiet (to_projected_niels p) ;;
  p <~ c_padd p dst0 false ;;
  dst1 <~ quiet (to_projected_niels p) ;;
  r <~ c_wnaf_loop 6 p tw_op ;;
  quiet (Some (dst0 :: dst1 :: r)).
(* extended_point.rs lines 374-383 and 385-394 *)
Definition c_var_step (cv cp : bool) (i : Z) (c : smvt) (precmp_var : list pniels) (out : point)
  : counted point :=
  if cv then
    if addend c >? 0 then
      e <~ quiet (znth precmp_var (usize_half (addend c))) ;;
      c_padd out e (negb (i =? 0) && negb cp)
    else
      a <~ quiet (chk_i64 (- addend c)) ;;
      e <~ quiet (znth precmp_var (usize_half a)) ;;
      c_psub out e (negb (i =? 0) && negb cp)
  else quiet (Some out).
Definition c_pre_step (cp : bool) (i : Z) (c : smvt) (out : point) : counted point :=
  if cp then
    if addend c >? 0 then
      e <~ quiet (znth DECAF_WNAF_TABLE (usize_half (addend c))) ;;
      c_add out e (negb (i =? 0))
    else
      a <~ quiet (chk_i64 (- addend c)) ;;
      e <~ quiet (znth DECAF_WNAF_TABLE (usize_half a)) ;;
      c_sub out e (negb (i =? 0))
  else quiet (Some out).
(* extended_point.rs lines 368-397 *)
Fixpoint c_double_mul_loop (fuel : nat) (control_var control_pre : list smvt)
  (precmp_var : list pniels) (i contv contp : Z) (out : point) : counted point :=
  if i >=? 0 then
    match fuel with
    | O => None
    | S f =>
        c_v <~ quiet (znth control_var contv) ;;
        c_p <~ quiet (znth control_pre contp) ;;
        let cv := i =? power c_v in
        let cp := i =? power c_p in
        out <~ c_double out (negb (i =? 0) && negb (cv || cp)) ;;
        out <~ c_var_step cv cp i c_v precmp_var out ;;
        out <~ c_pre_step cp i c_p out ;;
        c_double_mul_loop f control_var control_pre precmp_var (i - 1)
          (if cv then contv + 1 else contv) (if cp then contp + 1 else contp) out
    end
  else quiet (Some out).
(* extended_point.rs lines 307-402 *)
Definition c_point_double_scalamul_non_secret (p : point) (scalar_pre scalar_var : scalar)
  : counted point :=
  let control_var := repeat smvt_new 115 in
  let control_pre := repeat smvt_new 77 in
  rp <~ quiet (recode_wnaf control_pre scalar_pre 5) ;;
  let '(control_pre, _) := rp in
  rv <~ quiet (recode_wnaf control_var scalar_var 3) ;;
  let '(control_var, _) := rv in
  precmp_var <~ c_decaf_prepare_wnaf_table p ;;
  cv0 <~ quiet (znth control_var 0) ;;
  cp0 <~ quiet (znth control_pre 0) ;;
  let index := Z.shiftr (addend cv0) 1 in
  let i := power cv0 in
  start <~
    (if i >? power cp0 then
       e <~ quiet (znth precmp_var (wrap64 index)) ;;
       out <~ quiet (pniels_to_extended e) ;;
       quiet (Some (out, i, 1, 0))
     else if (i =? power cp0) && (i >=? 0) then
       e <~ quiet (znth precmp_var (wrap64 index)) ;;
       out <~ quiet (pniels_to_extended e) ;;
       n <~ quiet (znth DECAF_WNAF_TABLE (usize_half (addend cp0))) ;;
       out <~ c_add out n (negb (i =? 0)) ;;
       quiet (Some (out, i, 1, 1))
     else
       n <~ quiet (znth DECAF_WNAF_TABLE (usize_half (addend cp0))) ;;
       out <~ quiet (niels_to_extended n) ;;
       quiet (Some (out, power cp0, 0, 1))) ;;
  let '(out, i, contv, contp) := start in
  if i <? 0 then quiet (Some identity_point)
  else c_double_mul_loop 500 control_var control_pre precmp_var (i - 1) contv contp out.

(* extended_point.rs lines 513-568 *)
Definition c_eddsa_like_decode (src_org : list Z) : counted (result point error) :=
  if negb (Z.of_nat (length src_org) =? 57) then quiet (Some (Err InvalidLengthError))
  else
    src56 <~ quiet (znth src_org FIELD_BYTES) ;;
    let low := not32 (is_zero_mask (Z.land ZERO_MASK src56)) in
    let src56 := Z.land src56 0x7f in
    src <~ quiet (zupd src_org FIELD_BYTES src56) ;;
    let succ := is_zero_mask src56 in
    ys <~ quiet (dsa_like_deserialize src 0) ;;
    let '(y, succ1) := ys in
    let succ := Z.land succ succ1 in
    let x := square y in
    z <~ quiet (sub BIG_ONE x) ;;
    t <~ quiet (mul_with_signed_curve_constant x EDWARDS_D) ;;
    t <~ quiet (sub BIG_ONE t) ;;
    let x := mul z t in
    t <~ quiet (isr x) ;;
    let x := mul t z in
    lb <~ quiet (low_bit x) ;;
    x <~ quiet (decaf_cond_negate x (Z.lxor (not32 lb) low)) ;;
    let z := BIG_ONE in
    let c := square x in
    let a := square y in
    let d := add c a in
    let t := add y x in
    let b := square t in
    b <~ quiet (sub b d) ;;
    t <~ quiet (sub a c) ;;
    let x := square z in
    let z := add x x in
    a <~ quiet (sub z d) ;;
    let x := mul a b in
    let z := mul t a in
    let y := mul t d in
    let t := mul b d in
    let p := MkPoint x y z t in
    ok <~ quiet (is_on_curve p) ;;
    if negb ok || (succ =? DECAF_FALSE) then quiet (Some (Err DecodeError))
    else
      let scalar_one_forth := halve (halve SCALAR_ONE) in
      p <~ c_point_scalar_mul p scalar_one_forth ;;
      quiet (Some (Ok p)).

(* extended_point.rs lines 581-602 *)
Fixpoint c_comb_inner (rounds : nat) (j : Z) (s : scalar) (i : Z) (p : point) : counted point :=
  match rounds with
  | O => quiet (Some p)
  | S n =>
      tab <~ quiet (comb_tab 5 0 s i j 0) ;;
      let invert := Z.shiftr (as_i32 tab) (DECAF_COMB_TEETH - 1) - 1 in
      let tab := Z.lxor tab (wrap32 invert) in
      let tab := Z.land tab (2 ^ (DECAF_COMB_TEETH - 1) - 1) in
      let index := Z.shiftl j (DECAF_COMB_TEETH - 1) + tab in
      np <~ quiet (znth comb_base index) ;;
      np <~ quiet (niels_conditional_negate np (wrap32 invert)) ;;
      p <~ (if negb (i =? DECAF_COMB_SPACING - 1) || negb (j =? 0)
            then c_add p np ((j =? DECAF_COMB_NUMBER - 1) && negb (i =? 0))
            else quiet (niels_to_extended np)) ;;
      c_comb_inner n (j + 1) s i p
  end.
(* extended_point.rs lines 576-603 *)
Fixpoint c_comb_outer (rounds : nat) (s : scalar) (p : point) : counted point :=
  match rounds with
  | O => quiet (Some p)
  | S n =>
      let i := Z.of_nat n in
      p <~ (if negb (i =? DECAF_COMB_SPACING - 1) then c_double p false else quiet (Some p)) ;;
      p <~ c_comb_inner 5 0 s i p ;;
      c_comb_outer n s p
  end.
(* extended_point.rs lines 570-606 *)
Definition c_precomputed_scalar_mul (s : scalar) : counted point :=
  scalar2 <~ quiet (sadd s scalar_adjustment) ;;
  let scalar2 := halve scalar2 in
  c_comb_outer 18 scalar2 point_new.

(* goldilocks.rs lines 31-39 *)
Definition c_point_by_secret (p : list Z) : counted point :=
  digest <~ quiet (clamp p) ;;
  r <~ quiet (decode_long digest) ;;
  let r := halve r in
  let r := halve r in
  c_precomputed_scalar_mul r.
(* goldilocks.rs lines 48-53 *)
Definition c_secret_to_public (sk : list Z) : counted (list Z) :=
  h <~ c_point_by_secret sk ;;
  quiet (eddsa_like_encode h).

Section Hash.
Variable xof : list Z -> nat -> list Z.

(* eddsa.rs lines 19-24 and 26-35 *)
Definition c_sha3 (input : list Z) (outlen : nat) : counted (list Z) :=
  count (Hashing (length input) outlen) (Some (sha3 xof input outlen)).
Definition c_hash_with_dom (input : list Z) (outlen : nat) : counted (list Z) :=
  count (Hashing (length DOM + length input) outlen) (Some (hash_with_dom xof input outlen)).

(* goldilocks.rs lines 41-46 and 55-57 *)
Definition c_private_to_secret (pk : list Z) : counted (list Z) :=
  sk <~ c_sha3 pk 57 ;;
  b <~ quiet (znth sk 56) ;;
  quiet (zupd sk 56 (Z.lor b 0x80)).
Definition c_private_to_public (pk : list Z) : counted (list Z) :=
  s <~ c_private_to_secret pk ;; c_secret_to_public s.

(* goldilocks.rs lines 70-94 and 108-132 *)
Definition c_sign_tail (sec : scalar) (seed : list Z) (point : point) (message : list Z) : counted (list Z) :=
  nonce <~ c_hash_with_dom (seed ++ message) 114 ;;
  nonce_scalar <~ quiet (decode_long nonce) ;;
  let nonce_scalar2 := halve nonce_scalar in
  let nonce_scalar2 := halve nonce_scalar2 in
  np <~ c_precomputed_scalar_mul nonce_scalar2 ;;
  nonce_point <~ quiet (eddsa_like_encode np) ;;
  penc <~ quiet (eddsa_like_encode point) ;;
  challenge <~ c_hash_with_dom (nonce_point ++ penc ++ message) 114 ;;
  challenge_scalar <~ quiet (decode_long challenge) ;;
  challenge_scalar <~ quiet (smul challenge_scalar sec) ;;
  challenge_scalar <~ quiet (sadd challenge_scalar nonce_scalar) ;;
  quiet (Some (nonce_point ++ encode challenge_scalar)).
(* goldilocks.rs lines 59-95 *)
Definition c_sign_by_private (pk message : list Z) : counted (list Z) :=
  secret <~ c_sha3 pk 114 ;;
  secret <~ quiet (clamp secret) ;;
  sk <~ quiet (slice secret 0 57) ;;
  sec <~ quiet (decode_long sk) ;;
  seed <~ quiet (slice secret 57 114) ;;
  point <~ c_point_by_secret sk ;;
  c_sign_tail sec seed point message.
(* goldilocks.rs lines 97-133 *)
Definition c_sign_with_secret_and_nonce (secret n message : list Z) : counted (list Z) :=
  s1 <~ quiet (clamp secret) ;;
  sec <~ quiet (decode_long s1) ;;
  pub_point <~ c_point_by_secret secret ;;
  c_sign_tail sec n pub_point message.
(* goldilocks.rs lines 135-141 *)
Definition c_ed448_derive_public (pk : list Z) : counted (list Z) :=
  b <~ quiet (znth pk (57 - 1)) ;;
  if Z.land b 0x80 =? 0 then c_private_to_public pk else c_secret_to_public pk.
(* goldilocks.rs lines 143-152 *)
Definition c_ed448_sign (pk message : list Z) : counted (list Z) :=
  b <~ quiet (znth pk (57 - 1)) ;;
  if Z.land b 0x80 =? 0 then c_sign_by_private pk message
  else
    digest <~ quiet (clamp pk) ;;
    c_sign_with_secret_and_nonce digest digest message.

(* eddsa.rs lines 39-102 *)
Definition c_dsa_verify (pubkey sig message : list Z) : counted (result bool error) :=
  dp <~ c_eddsa_like_decode pubkey ;;
  match dp with
  | Err InvalidLengthError => quiet (Some (Err InvalidPubkeyLengthError))
  | Err DecodeError => quiet (Some (Err DecodePubkeyError))
  | Err _ => None
  | Ok p =>
      p2 <~ c_point_scalar_mul p scalar_four ;;
      sig1 <~ quiet (slice sig 0 57) ;;
      sig2 <~ quiet (slice sig 57 (57 + 57)) ;;
      dr <~ c_eddsa_like_decode sig1 ;;
      match dr with
      | Err InvalidLengthError => quiet (Some (Err InvalidSignatureLengthError))
      | Err DecodeError => quiet (Some (Err DecodeSignatureError))
      | Err _ => None
      | Ok r_point =>
          r_point <~ c_point_scalar_mul r_point scalar_four ;;
          penc <~ quiet (eddsa_like_encode p) ;;
          challenge <~ c_hash_with_dom (sig1 ++ penc ++ message) 114 ;;
          challenge_scalar <~ quiet (decode_long challenge) ;;
          challenge_scalar <~ quiet (ssub SCALAR_ZERO challenge_scalar) ;;
          responce_scalar <~ quiet (decode_long sig2) ;;
          pk <~ c_point_double_scalamul_non_secret p2 responce_scalar challenge_scalar ;;
          b <~ quiet (mod_equal r_point pk) ;;
          quiet (Some (Ok b))
      end
  end.
(* goldilocks.rs lines 154-161 *)
Definition c_ed448_verify (pubkey sig message : list Z) : counted (result bool error) :=
  if bytes_eqb pubkey zero_public_key || bytes_eqb sig zero_signature
  then quiet (Some (Err InvalidSignatureError))
  else c_dsa_verify pubkey sig message.
End Hash.
