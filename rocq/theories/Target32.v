(* Targets on which usize has 32 bits: the functions which compute with usize or call one that does,
   once more, with chk_usize and the casts "as usize" for 32 bits.  Generated by a script from the model files named
   below by putting w_ in front of names; the text is otherwise the same.  Counters that the 64-bit model keeps in Z
   because they stay below small constants are kept in Z here too. *)
From Coq Require Import ZArith List Bool.
From Verif Require Import Base Constants32 Karatsuba32 KaratsubaSquare32 BigNumber ScalarModel Niels CombTable WnafTable Errors.
From Verif Require Import ExtendedPoint Eddsa Goldilocks Lib.
Import ListNotations.
Open Scope Z_scope.

(* "-" of usize, trapping *)
Definition w_chk_usize (z : Z) : option Z := chk 0 0x100000000 z.
(* "(addend as usize) >> 1" for an i64 addend *)
Definition w_usize_half (a : Z) : Z := Z.shiftr (wrap32 a) 1.

(* ---- BigNumber.v ---- *)
(* bignumber.rs lines 105-119.  The loop counter decreases by 2 from an even number (y - 1 or
   y - 2); y = 0 underflows in the else branch.  [fuel] counts loop rounds. *)
Fixpoint w_square_n_loop (fuel : nat) (n : bn) (y : Z) : option bn :=
  if y >? 0 then
    match fuel with
    | O => None
    | S f => y' <- w_chk_usize (y - 2) ;; w_square_n_loop f (square (square n)) y'
    end
  else Some n.
Definition w_square_n (x : bn) (y : Z) : option bn :=
  if Z.odd y then
    let n := square x in
    y' <- w_chk_usize (y - 1) ;; w_square_n_loop 200 n y'
  else
    let n := square (square x) in
    y' <- w_chk_usize (y - 2) ;; w_square_n_loop 200 n y'.
(* bignumber.rs lines 73-103; the last two assignments (l2, l0) are dead in the source *)
Definition w_isr (x : bn) : option bn :=
  let l1 := square x in
  let l2 := mul x l1 in
  let l1 := square l2 in
  let l2 := mul x l1 in
  l1 <- w_square_n l2 3 ;;
  let l0 := mul l2 l1 in
  l1 <- w_square_n l0 3 ;;
  let l0 := mul l2 l1 in
  l2 <- w_square_n l0 9 ;;
  let l1 := mul l0 l2 in
  let l0 := square l1 in
  let l2 := mul x l0 in
  l0 <- w_square_n l2 18 ;;
  let l2 := mul l1 l0 in
  l0 <- w_square_n l2 37 ;;
  let l1 := mul l2 l0 in
  l0 <- w_square_n l1 37 ;;
  let l1 := mul l2 l0 in
  l0 <- w_square_n l1 111 ;;
  let l2 := mul l1 l0 in
  let l0 := square l2 in
  let l1 := mul x l0 in
  l0 <- w_square_n l1 223 ;;
  let l1 := mul l2 l0 in
  Some l1.
(* bignumber.rs lines 64-70 *)
Definition w_invert (x : bn) : option bn :=
  let t1 := square x in
  t2 <- w_isr t1 ;;
  let t1 := square t2 in
  Some (mul t1 x).
(* bignumber.rs lines 612-633: the for loop over the limbs i = k, k+1, ...; [ms] is MODULUS from
   position i on.  Returns the limbs, buffer and scarry at the end.  Non-wrapping: fill -= RADIX
   and (... >> 8) * 4. *)
Fixpoint w_dsa_loop (ms : list Z) (i : Z) (input : list Z) (mask fill j buffer scarry : Z)
  : option (list Z * Z * Z) :=
  match ms with
  | [] => Some ([], buffer, scarry)
  | m :: ms' =>
      '(fill, j, buffer) <- dsa_fill 57 input mask fill j buffer ;;
      let n := if i >=? N_LIMBS - 1 then wrap32 buffer
               else wrap32 (Z.land buffer (2 ^ RADIX - 1)) in
      fill <- w_chk_usize (fill - RADIX) ;;
      let buffer := Z.shiftr buffer RADIX in
      scarry <- chk_u32 (Z.shiftr (wsub32 (wadd32 (wrap32 scarry) n) m) 8 * 4) ;;
      '(r, b, s) <- w_dsa_loop ms' (i + 1) input mask fill j buffer scarry ;;
      Some (n :: r, b, s)
  end.
(* bignumber.rs lines 604-639 *)
Definition w_dsa_like_deserialize (input : list Z) (mask : Z) : option (bn * Z) :=
  '(l, buffer, scarry) <- w_dsa_loop MODULUS 0 input mask 0 0 0 0 ;;
  n <- of_limbs l ;;
  Some (n, Z.land (is_zero_mask (wrap32 buffer)) (not32 (is_zero_mask (wrap32 scarry)))).
(* bignumber.rs lines 648-657: k bytes still to write; x is the list of limbs from index j on.
   fill -= 8 is non-wrapping; the test j < N_LIMBS is "x is not empty". *)
Fixpoint w_ser_loop (k : nat) (x : list Z) (fill buffer : Z) : option (list Z) :=
  match k with
  | O => Some []
  | S k' =>
      let '(x, fill, buffer) :=
        match x with
        | xj :: x' =>
            if fill <? 8 then (x', fill + RADIX, Z.lor buffer (shl64 xj fill))
            else (x, fill, buffer)
        | [] => (x, fill, buffer)
        end in
      let item := Z.land buffer 0xff in
      fill <- w_chk_usize (fill - 8) ;;
      r <- w_ser_loop k' x fill (Z.shiftr buffer 8) ;;
      Some (item :: r)
  end.
(* bignumber.rs lines 641-659 *)
Definition w_dsa_like_serialize (n : bn) : option (list Z) :=
  x <- strong_reduce n ;;
  w_ser_loop 56 (limbs x) 0 0.

(* ---- ScalarModel.v ---- *)
(* scalar.rs lines 209-214: while loop; [fuel] bounds the number of 56-byte blocks *)
Fixpoint w_long_loop (fuel : nat) (b : list Z) (size : Z) (res : scalar) : option scalar :=
  if size >? 0 then
    match fuel with
    | O => None
    | S f =>
        size <- w_chk_usize (size - SCALAR_SER_BYTES) ;;
        res <- montgomery_multiply res SCALAR_R2 ;;
        y <- decode (skipn (Z.to_nat size) b) ;;
        res <- sadd res y ;;
        w_long_loop f b size res
    end
  else Some res.
(* scalar.rs lines 188-217 *)
Definition w_decode_long (b : list Z) : option scalar :=
  let b_len := Z.of_nat (length b) in
  let size := b_len - b_len mod SCALAR_SER_BYTES in
  if b_len =? 0 then Some create_zero_scalar
  else
    let size := if size =? b_len then size - SCALAR_SER_BYTES else size in
    res <- decode_short (skipn (Z.to_nat size) b) (b_len - size) ;;
    if b_len =? SCALAR_SER_BYTES then smul res SCALAR_ONE
    else w_long_loop (length b) b size res.

(* ---- ExtendedPoint.v ---- *)
(* extended_point.rs lines 188-212; "as u8" of ZERO_MASK & low_bit keeps a value < 256 *)
Definition w_eddsa_like_encode (p : point) : option (list Z) :=
  let x := square (px p) in
  let t := square (py p) in
  let u := add x t in
  let z := add (py p) (px p) in
  let y := square z in
  y <- sub u y ;;
  z <- sub t x ;;
  let x := square (pz p) in
  let t := add x x in
  t <- sub t z ;;
  let x := mul t y in
  let y := mul z u in
  let z := mul u t in
  z <- w_invert z ;;
  let t := mul x z in
  let x := mul y z in
  ser <- w_dsa_like_serialize x ;;
  lb <- low_bit t ;;
  Some (ser ++ [Z.land (Z.land ZERO_MASK lb) 0xff]).
(* extended_point.rs lines 464-475: while loop of recode_wnaf; state (control, position, current).
   Non-wrapping: the i64 subtraction, position -= 1 (usize); [delta << pos] is an i32 shift. *)
Fixpoint w_recode_while (fuel : nat) (table_bits w : Z) (control : list smvt) (position current : Z)
  : option (list smvt * Z * Z) :=
  if Z.land current 0xffff =? 0 then Some (control, position, current)
  else
    match fuel with
    | O => None
    | S f =>
        pos <- trailing_zeroes_32 (wrap32 current) ;;
        let odd := Z.shiftr (wrap32 current) pos in
        let delta := Z.land odd (2 ^ (table_bits + 1) - 1) in
        let delta := if negb (Z.land odd (2 ^ (table_bits + 1)) =? 0)
                     then delta - 2 ^ (table_bits + 1) else delta in
        d <- chk_i64 (as_i64 current - as_i32 (wrap32 (Z.shiftl delta pos))) ;;
        let current := wrap64 d in
        control <- zupd control position (Smvt (pos + 16 * (w - 1)) delta) ;;
        position <- w_chk_usize (position - 1) ;;
        w_recode_while f table_bits w control position current
    end.
(* extended_point.rs lines 460-477: for w in w0..30 *)
Fixpoint w_recode_for (rounds : nat) (w : Z) (s : scalar) (table_bits : Z)
  (control : list smvt) (position current : Z) : option (list smvt * Z * Z) :=
  match rounds with
  | O => Some (control, position, current)
  | S n =>
      current <- (if w <? 28
                  then sw <- znth s (w / 2) ;;
                       chk_u64 (current + shl32 (Z.shiftr sw (16 * (w mod 2))) 16)
                  else Some current) ;;
      '(control, position, current) <- w_recode_while 20 table_bits w control position current ;;
      w_recode_for n (w + 1) s table_bits control position (Z.shiftr current 16)
  end.
(* extended_point.rs lines 448-485: returns the new control array and the result *)
Definition w_recode_wnaf (control : list smvt) (s : scalar) (table_bits : Z)
  : option (list smvt * Z) :=
  let table_size := 446 / (table_bits + 1) + 3 in
  let position := table_size - 1 in
  control <- zupd control position (Smvt (-1) 0) ;;
  let position := position - 1 in
  s0 <- znth s 0 ;;
  let current := Z.land s0 0xffff in
  '(control, position, _) <- w_recode_for 29 1 s table_bits control position current ;;
  let position := position + 1 in
  n <- w_chk_usize (table_size - position) ;;
  control <- recode_copy (Z.to_nat n) 0 position control ;;
  r <- w_chk_usize (n - 1) ;;
  Some (control, wrap32 r).
(* extended_point.rs lines 374-383 and 385-394: the digit of the variable table, then the digit of
   the fixed table.  (-addend) is a non-wrapping i64 negation. *)
Definition w_var_step (cv cp : bool) (i : Z) (c : smvt) (precmp_var : list pniels) (out : point)
  : option point :=
  if cv then
    if addend c >? 0 then
      e <- znth precmp_var (w_usize_half (addend c)) ;;
      add_projected_niels_to_extended out e (negb (i =? 0) && negb cp)
    else
      a <- chk_i64 (- addend c) ;;
      e <- znth precmp_var (w_usize_half a) ;;
      sub_projected_niels_from_extended_point out e (negb (i =? 0) && negb cp)
  else Some out.
Definition w_pre_step (cp : bool) (i : Z) (c : smvt) (out : point) : option point :=
  if cp then
    if addend c >? 0 then
      e <- znth DECAF_WNAF_TABLE (w_usize_half (addend c)) ;;
      add_niels_to_extended out e (negb (i =? 0))
    else
      a <- chk_i64 (- addend c) ;;
      e <- znth DECAF_WNAF_TABLE (w_usize_half a) ;;
      sub_niels_from_extended_point out e (negb (i =? 0))
  else Some out.
(* extended_point.rs lines 368-397 *)
Fixpoint w_double_mul_loop (fuel : nat) (control_var control_pre : list smvt)
  (precmp_var : list pniels) (i contv contp : Z) (out : point) : option point :=
  if i >=? 0 then
    match fuel with
    | O => None
    | S f =>
        c_v <- znth control_var contv ;;
        c_p <- znth control_pre contp ;;
        let cv := i =? power c_v in
        let cp := i =? power c_p in
        out <- double_internal out (negb (i =? 0) && negb (cv || cp)) ;;
        out <- w_var_step cv cp i c_v precmp_var out ;;
        out <- w_pre_step cp i c_p out ;;
        w_double_mul_loop f control_var control_pre precmp_var (i - 1)
          (if cv then contv + 1 else contv) (if cp then contp + 1 else contp) out
    end
  else Some out.
(* extended_point.rs lines 307-402 *)
Definition w_point_double_scalamul_non_secret (p : point) (scalar_pre scalar_var : scalar)
  : option point :=
  let control_var := repeat smvt_new 115 in
  let control_pre := repeat smvt_new 77 in
  '(control_pre, _) <- w_recode_wnaf control_pre scalar_pre 5 ;;
  '(control_var, _) <- w_recode_wnaf control_var scalar_var 3 ;;
  precmp_var <- decaf_prepare_wnaf_table p ;;
  cv0 <- znth control_var 0 ;;
  cp0 <- znth control_pre 0 ;;
  let index := Z.shiftr (addend cv0) 1 in
  let i := power cv0 in
  '(out, i, contv, contp) <-
    (if i >? power cp0 then
       e <- znth precmp_var (wrap32 index) ;;
       out <- pniels_to_extended e ;;
       Some (out, i, 1, 0)
     else if (i =? power cp0) && (i >=? 0) then
       e <- znth precmp_var (wrap32 index) ;;
       out <- pniels_to_extended e ;;
       n <- znth DECAF_WNAF_TABLE (w_usize_half (addend cp0)) ;;
       out <- add_niels_to_extended out n (negb (i =? 0)) ;;
       Some (out, i, 1, 1)
     else
       n <- znth DECAF_WNAF_TABLE (w_usize_half (addend cp0)) ;;
       out <- niels_to_extended n ;;
       Some (out, power cp0, 0, 1)) ;;
  if i <? 0 then Some identity_point
  else w_double_mul_loop 500 control_var control_pre precmp_var (i - 1) contv contp out.
(* extended_point.rs lines 513-568 *)
Definition w_eddsa_like_decode (src_org : list Z) : option (result point error) :=
  if negb (Z.of_nat (length src_org) =? 57) then Some (Err InvalidLengthError)
  else
    src56 <- znth src_org FIELD_BYTES ;;
    let low := not32 (is_zero_mask (Z.land ZERO_MASK src56)) in
    let src56 := Z.land src56 0x7f in
    src <- zupd src_org FIELD_BYTES src56 ;;
    let succ := is_zero_mask src56 in
    '(y, succ1) <- w_dsa_like_deserialize src 0 ;;
    let succ := Z.land succ succ1 in
    let x := square y in
    z <- sub BIG_ONE x ;;
    t <- mul_with_signed_curve_constant x EDWARDS_D ;;
    t <- sub BIG_ONE t ;;
    let x := mul z t in
    t <- w_isr x ;;
    let x := mul t z in
    lb <- low_bit x ;;
    x <- decaf_cond_negate x (Z.lxor (not32 lb) low) ;;
    let z := BIG_ONE in
    let c := square x in
    let a := square y in
    let d := add c a in
    let t := add y x in
    let b := square t in
    b <- sub b d ;;
    t <- sub a c ;;
    let x := square z in
    let z := add x x in
    a <- sub z d ;;
    let x := mul a b in
    let z := mul t a in
    let y := mul t d in
    let t := mul b d in
    let p := MkPoint x y z t in
    ok <- is_on_curve p ;;
    if negb ok || (succ =? DECAF_FALSE) then Some (Err DecodeError)
    else
      let scalar_one_forth := halve (halve SCALAR_ONE) in
      p <- point_scalar_mul p scalar_one_forth ;;
      Some (Ok p).

(* ---- Eddsa.v ---- *)
Section Hash.
Variable xof : list Z -> nat -> list Z.
(* eddsa.rs lines 39-102 *)
Definition w_dsa_verify (pubkey sig message : list Z) : option (result bool error) :=
  dp <- w_eddsa_like_decode pubkey ;;
  match dp with
  | Err InvalidLengthError => Some (Err InvalidPubkeyLengthError)
  | Err DecodeError => Some (Err DecodePubkeyError)
  | Err _ => None
  | Ok p =>
      p2 <- point_scalar_mul p scalar_four ;;
      sig1 <- slice sig 0 57 ;;
      sig2 <- slice sig 57 (57 + 57) ;;
      dr <- w_eddsa_like_decode sig1 ;;
      match dr with
      | Err InvalidLengthError => Some (Err InvalidSignatureLengthError)
      | Err DecodeError => Some (Err DecodeSignatureError)
      | Err _ => None
      | Ok r_point =>
          r_point <- point_scalar_mul r_point scalar_four ;;
          penc <- w_eddsa_like_encode p ;;
          let challenge := hash_with_dom xof (sig1 ++ penc ++ message) 114 in
          challenge_scalar <- w_decode_long challenge ;;
          challenge_scalar <- ssub SCALAR_ZERO challenge_scalar ;;
          responce_scalar <- w_decode_long sig2 ;;
          pk <- w_point_double_scalamul_non_secret p2 responce_scalar challenge_scalar ;;
          b <- mod_equal r_point pk ;;
          Some (Ok b)
      end
  end.
End Hash.

(* ---- Goldilocks.v ---- *)
(* goldilocks.rs lines 31-39 *)
Definition w_point_by_secret (p : list Z) : option point :=
  digest <- clamp p ;;
  r <- w_decode_long digest ;;
  let r := halve r in
  let r := halve r in
  precomputed_scalar_mul r.
(* goldilocks.rs lines 48-53 *)
Definition w_secret_to_public (sk : list Z) : option (list Z) :=
  h <- w_point_by_secret sk ;;
  w_eddsa_like_encode h.
Section Hash.
Variable xof : list Z -> nat -> list Z.
(* goldilocks.rs lines 55-57 *)
Definition w_private_to_public (pk : list Z) : option (list Z) :=
  s <- private_to_secret xof pk ;; w_secret_to_public s.
(* goldilocks.rs lines 70-94, and (with the same text) lines 108-132: everything after the secret
   scalar [sec], the nonce prefix [seed] and the public point [point] are known *)
Definition w_sign_tail (sec : scalar) (seed : list Z) (point : point) (message : list Z)
  : option (list Z) :=
  let nonce := hash_with_dom xof (seed ++ message) 114 in
  nonce_scalar <- w_decode_long nonce ;;
  let nonce_scalar2 := halve nonce_scalar in
  let nonce_scalar2 := halve nonce_scalar2 in
  np <- precomputed_scalar_mul nonce_scalar2 ;;
  nonce_point <- w_eddsa_like_encode np ;;
  penc <- w_eddsa_like_encode point ;;
  let challenge := hash_with_dom xof (nonce_point ++ penc ++ message) 114 in
  challenge_scalar <- w_decode_long challenge ;;
  challenge_scalar <- smul challenge_scalar sec ;;
  challenge_scalar <- sadd challenge_scalar nonce_scalar ;;
  Some (nonce_point ++ encode challenge_scalar).
(* goldilocks.rs lines 59-95 *)
Definition w_sign_by_private (pk message : list Z) : option (list Z) :=
  let secret := sha3 xof pk 114 in
  secret <- clamp secret ;;
  sk <- slice secret 0 57 ;;
  sec <- w_decode_long sk ;;
  seed <- slice secret 57 114 ;;
  point <- w_point_by_secret sk ;;
  w_sign_tail sec seed point message.
(* goldilocks.rs lines 97-133 *)
Definition w_sign_with_secret_and_nonce (secret n message : list Z) : option (list Z) :=
  s1 <- clamp secret ;;
  sec <- w_decode_long s1 ;;
  pub_point <- w_point_by_secret secret ;;
  w_sign_tail sec n pub_point message.
(* goldilocks.rs lines 135-141 *)
Definition w_ed448_derive_public (pk : list Z) : option (list Z) :=
  b <- znth pk (57 - 1) ;;
  if Z.land b 0x80 =? 0 then w_private_to_public pk else w_secret_to_public pk.
(* goldilocks.rs lines 143-152 *)
Definition w_ed448_sign (pk message : list Z) : option (list Z) :=
  b <- znth pk (57 - 1) ;;
  if Z.land b 0x80 =? 0 then w_sign_by_private pk message
  else
    digest <- clamp pk ;;
    w_sign_with_secret_and_nonce digest digest message.
(* goldilocks.rs lines 154-161 *)
Definition w_ed448_verify (pubkey sig message : list Z) : option (result bool error) :=
  if bytes_eqb pubkey zero_public_key || bytes_eqb sig zero_signature
  then Some (Err InvalidSignatureError)
  else w_dsa_verify xof pubkey sig message.
(* goldilocks.rs lines 163-179 *)
Definition w_ed448_verify_with_error (pubkey sig message : list Z) : option (result unit error) :=
  if bytes_eqb pubkey zero_public_key || bytes_eqb sig zero_signature
  then Some (Err InvalidSignatureError)
  else
    r <- w_dsa_verify xof pubkey sig message ;;
    match r with
    | Err e => Some (Err e)
    | Ok is_ok => if negb is_ok then Some (Err InvalidSignatureError) else Some (Ok tt)
    end.
End Hash.

(* ---- Lib.v ---- *)
Section Hash.
Variable xof : list Z -> nat -> list Z.
(* lib.rs lines 82-92 *)
Definition w_signing_from_str (str : list Z) : option signing_key :=
  private_key <- hex_to_private_key str ;;
  public_key <- w_ed448_derive_public xof private_key ;;
  Some (SigningKey (SecretKey private_key) (VerifyingKey public_key)).
(* lib.rs lines 97-108 *)
Definition w_signing_from_slice (s : list Z) : option signing_key :=
  private_key <- to_array57 s ;;
  public_key <- w_ed448_derive_public xof private_key ;;
  Some (SigningKey (SecretKey private_key) (VerifyingKey public_key)).
(* lib.rs lines 110-126 *)
Definition w_signing_from_bytes (s : list Z) : option (result signing_key error) :=
  if negb (Z.of_nat (length s) =? 57)
  then Some (Err (InvalidPrivKeyLengthErrro (Z.of_nat (length s))))
  else
    private_key <- to_array57 s ;;
    public_key <- w_ed448_derive_public xof private_key ;;
    Some (Ok (SigningKey (SecretKey private_key) (VerifyingKey public_key))).
(* lib.rs lines 57-61 *)
Definition w_signing_from_secret (s : secret_key) : option signing_key :=
  w_signing_from_slice (sk_key s).
(* lib.rs lines 128-136: [rng] is the 57 bytes that fill_bytes writes *)
Definition w_signing_random (rng : list Z) : option signing_key := w_signing_from_slice rng.
(* lib.rs lines 151-162 *)
Definition w_sign_prehash (s : signing_key) (prehash : list Z) : option (result signature error) :=
  sig <- w_ed448_sign xof (sk_key (sg_secret s)) prehash ;;
  if (Z.of_nat (length sig) =? 114) && (Z.of_nat (length (vk_key (sg_verifying s))) =? 57)
  then Some (Ok (Signature (sig ++ vk_key (sg_verifying s))))
  else None.
(* lib.rs lines 180-192, 204-216, 228-240; [input] is what String::deserialize returns *)
Definition w_signing_deserialize (f : format) (input : result (list Z) unit)
  : option (result signing_key unit) :=
  if human_readable f then
    match input with
    | Err e => Some (Err e)
    | Ok s => k <- w_signing_from_str s ;; Some (Ok k)
    end
  else Some (Err tt).
End Hash.
