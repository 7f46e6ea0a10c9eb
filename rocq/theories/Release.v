(* Release builds: the functions which contain an overflow check or call one that does, once more, with
   "+", "-", "*" wrapping instead of trapping.  Generated by a script from the model files named below by
   putting r_ in front of names; the text is otherwise the same.  Index checks, slices and [expect] panic as before.
   Functions without overflow checks are shared with the debug model. *)
From Coq Require Import ZArith List Bool.
From Verif Require Import Base Constants32 Karatsuba32 KaratsubaSquare32 BigNumber ScalarModel Niels CombTable WnafTable Errors.
From Verif Require Import ExtendedPoint Eddsa Goldilocks Lib.
Import ListNotations.
Open Scope Z_scope.

(* the operators of Base.chk_u32, chk_u64, chk_usize, chk_i64 when overflow checks are off *)
Definition r_chk_u32 (z : Z) : option Z := Some (wrap32 z).
Definition r_chk_u64 (z : Z) : option Z := Some (wrap64 z).
Definition r_chk_usize (z : Z) : option Z := Some (wrap64 z).
Definition r_chk_i64 (z : Z) : option Z := Some (as_i64 (wrap64 z)).

(* ---- BigNumber.v ---- *)
(* bignumber.rs lines 27-49; RADIX_MASK * b and co1 - b are non-wrapping u32 operations *)
Definition r_bias (n : bn) (b : Z) : option bn :=
  co1 <- r_chk_u32 (RADIX_MASK * b) ;;
  co2 <- r_chk_u32 (co1 - b) ;;
  Some (bn_map2 wadd32 n
          (BN co1 co1 co1 co1 co1 co1 co1 co1 co2 co1 co1 co1 co1 co1 co1 co1)).
(* bignumber.rs lines 52-62 (dead code outside tests); n[4] + 1 is non-wrapping *)
Definition r_constant_time_greater_or_equal_p (n : bn) : option Z :=
  let '(BN n0 n1 n2 n3 n4 n5 n6 n7 _ _ _ _ _ _ _ _) := n in
  let ge := Z.land (Z.land (Z.land (Z.land LMASK n0) n1) n2) n3 in
  n4' <- r_chk_u32 (n4 + 1) ;;
  let ge := Z.lor (Z.land ge n4') (is_zero_mask (Z.lxor n4 RADIX_MASK)) in
  let ge := Z.land (Z.land (Z.land ge n5) n6) n7 in
  Some (not32 (is_zero_mask (Z.lxor ge RADIX_MASK))).
(* bignumber.rs lines 143-145, 180-182, 206-212 *)
Definition r_neg (x : bn) : option bn :=
  b <- r_bias (neg_raw x) 2 ;; Some (weak_reduce b).
Definition r_sub (x y : bn) : option bn :=
  b <- r_bias (sub_raw x y) 2 ;; Some (weak_reduce b).
Definition r_sub_x_bias (x y : bn) (amt : Z) : option bn :=
  b <- r_bias (sub_raw x y) amt ;; Some (weak_reduce b).
(* bignumber.rs lines 105-119.  The loop counter decreases by 2 from an even number (y - 1 or
   y - 2); y = 0 underflows in the else branch.  [fuel] counts loop rounds. *)
Fixpoint r_square_n_loop (fuel : nat) (n : bn) (y : Z) : option bn :=
  if y >? 0 then
    match fuel with
    | O => None
    | S f => y' <- r_chk_usize (y - 2) ;; r_square_n_loop f (square (square n)) y'
    end
  else Some n.
Definition r_square_n (x : bn) (y : Z) : option bn :=
  if Z.odd y then
    let n := square x in
    y' <- r_chk_usize (y - 1) ;; r_square_n_loop 200 n y'
  else
    let n := square (square x) in
    y' <- r_chk_usize (y - 2) ;; r_square_n_loop 200 n y'.
(* bignumber.rs lines 73-103; the last two assignments (l2, l0) are dead in the source *)
Definition r_isr (x : bn) : option bn :=
  let l1 := square x in
  let l2 := mul x l1 in
  let l1 := square l2 in
  let l2 := mul x l1 in
  l1 <- r_square_n l2 3 ;;
  let l0 := mul l2 l1 in
  l1 <- r_square_n l0 3 ;;
  let l0 := mul l2 l1 in
  l2 <- r_square_n l0 9 ;;
  let l1 := mul l0 l2 in
  let l0 := square l1 in
  let l2 := mul x l0 in
  l0 <- r_square_n l2 18 ;;
  let l2 := mul l1 l0 in
  l0 <- r_square_n l2 37 ;;
  let l1 := mul l2 l0 in
  l0 <- r_square_n l1 37 ;;
  let l1 := mul l2 l0 in
  l0 <- r_square_n l1 111 ;;
  let l2 := mul l1 l0 in
  let l0 := square l2 in
  let l1 := mul x l0 in
  l0 <- r_square_n l1 223 ;;
  let l1 := mul l2 l0 in
  Some l1.
(* bignumber.rs lines 64-70 *)
Definition r_invert (x : bn) : option bn :=
  let t1 := square x in
  t2 <- r_isr t1 ;;
  let t1 := square t2 in
  Some (mul t1 x).
(* bignumber.rs lines 222-339.  x[15] + x[7] (u32), accum0 += accum8 + n[8] and
   accum8 += n[0] (u64) are non-wrapping. *)
Definition r_mul_w (x : bn) (w : Z) : option bn :=
  let '(BN x0 x1 x2 x3 x4 x5 x6 x7 x8 x9 x10 x11 x12 x13 x14 x15) := x in
  let whi := wrap32 (Z.shiftr w RADIX) in
  let wlo := wrap32 (Z.land w RADIX_MASK) in
  let accum0 := wmul64 wlo x0 in
  let accum8 := wmul64 wlo x8 in
  let accum0 := wadd64 accum0 (wmul64 whi x15) in
  x15_7 <- r_chk_u32 (x15 + x7) ;;
  let accum8 := wadd64 accum8 (wmul64 whi x15_7) in
  let n0 := wrap32 (Z.land accum0 RADIX_MASK) in
  let accum0 := Z.shiftr accum0 RADIX in
  let n8 := wrap32 (Z.land accum8 RADIX_MASK) in
  let accum8 := Z.shiftr accum8 RADIX in
  (* 1 *)
  let accum0 := wadd64 accum0 (wmul64 wlo x1) in
  let accum8 := wadd64 accum8 (wmul64 wlo x9) in
  let accum0 := wadd64 accum0 (wmul64 whi x0) in
  let accum8 := wadd64 accum8 (wmul64 whi x8) in
  let n1 := wrap32 (Z.land accum0 RADIX_MASK) in
  let accum0 := Z.shiftr accum0 RADIX in
  let n9 := wrap32 (Z.land accum8 RADIX_MASK) in
  let accum8 := Z.shiftr accum8 RADIX in
  (* 2 *)
  let accum0 := wadd64 accum0 (wmul64 wlo x2) in
  let accum8 := wadd64 accum8 (wmul64 wlo x10) in
  let accum0 := wadd64 accum0 (wmul64 whi x1) in
  let accum8 := wadd64 accum8 (wmul64 whi x9) in
  let n2 := wrap32 (Z.land accum0 RADIX_MASK) in
  let accum0 := Z.shiftr accum0 RADIX in
  let n10 := wrap32 (Z.land accum8 RADIX_MASK) in
  let accum8 := Z.shiftr accum8 RADIX in
  (* 3 *)
  let accum0 := wadd64 accum0 (wmul64 wlo x3) in
  let accum8 := wadd64 accum8 (wmul64 wlo x11) in
  let accum0 := wadd64 accum0 (wmul64 whi x2) in
  let accum8 := wadd64 accum8 (wmul64 whi x10) in
  let n3 := wrap32 (Z.land accum0 RADIX_MASK) in
  let accum0 := Z.shiftr accum0 RADIX in
  let n11 := wrap32 (Z.land accum8 RADIX_MASK) in
  let accum8 := Z.shiftr accum8 RADIX in
  (* 4 *)
  let accum0 := wadd64 accum0 (wmul64 wlo x4) in
  let accum8 := wadd64 accum8 (wmul64 wlo x12) in
  let accum0 := wadd64 accum0 (wmul64 whi x3) in
  let accum8 := wadd64 accum8 (wmul64 whi x11) in
  let n4 := wrap32 (Z.land accum0 RADIX_MASK) in
  let accum0 := Z.shiftr accum0 RADIX in
  let n12 := wrap32 (Z.land accum8 RADIX_MASK) in
  let accum8 := Z.shiftr accum8 RADIX in
  (* 5 *)
  let accum0 := wadd64 accum0 (wmul64 wlo x5) in
  let accum8 := wadd64 accum8 (wmul64 wlo x13) in
  let accum0 := wadd64 accum0 (wmul64 whi x4) in
  let accum8 := wadd64 accum8 (wmul64 whi x12) in
  let n5 := wrap32 (Z.land accum0 RADIX_MASK) in
  let accum0 := Z.shiftr accum0 RADIX in
  let n13 := wrap32 (Z.land accum8 RADIX_MASK) in
  let accum8 := Z.shiftr accum8 RADIX in
  (* 6 *)
  let accum0 := wadd64 accum0 (wmul64 wlo x6) in
  let accum8 := wadd64 accum8 (wmul64 wlo x14) in
  let accum0 := wadd64 accum0 (wmul64 whi x5) in
  let accum8 := wadd64 accum8 (wmul64 whi x13) in
  let n6 := wrap32 (Z.land accum0 RADIX_MASK) in
  let accum0 := Z.shiftr accum0 RADIX in
  let n14 := wrap32 (Z.land accum8 RADIX_MASK) in
  let accum8 := Z.shiftr accum8 RADIX in
  (* 7 *)
  let accum0 := wadd64 accum0 (wmul64 wlo x7) in
  let accum8 := wadd64 accum8 (wmul64 wlo x15) in
  let accum0 := wadd64 accum0 (wmul64 whi x6) in
  let accum8 := wadd64 accum8 (wmul64 whi x14) in
  let n7 := wrap32 (Z.land accum0 RADIX_MASK) in
  let accum0 := Z.shiftr accum0 RADIX in
  let n15 := wrap32 (Z.land accum8 RADIX_MASK) in
  let accum8 := Z.shiftr accum8 RADIX in
  (* finish *)
  a8n8 <- r_chk_u64 (accum8 + n8) ;;
  accum0 <- r_chk_u64 (accum0 + a8n8) ;;
  let n8 := wrap32 (Z.land accum0 RADIX_MASK) in
  let n9 := wadd32 n9 (wrap32 (Z.shiftr accum0 RADIX)) in
  accum8 <- r_chk_u64 (accum8 + n0) ;;
  let n0 := wrap32 (Z.land accum8 RADIX_MASK) in
  let n1 := wadd32 n1 (wrap32 (Z.shiftr accum8 RADIX)) in
  Some (BN n0 n1 n2 n3 n4 n5 n6 n7 n8 n9 n10 n11 n12 n13 n14 n15).
(* bignumber.rs lines 341-347; -*c is a non-wrapping i64 negation *)
Definition r_mul_with_signed_curve_constant (x : bn) (c : Z) : option bn :=
  if c >? 0 then r_mul_w x c
  else
    c' <- r_chk_i64 (- c) ;;
    r <- r_mul_w x (wrap64 c') ;;
    r_sub BIG_ZERO r.
Definition r_conditional_negate (n : bn) (negate : Z) : option bn :=
  m <- r_neg n ;; Some (constant_time_select m n negate).
Fixpoint r_sub_chain (scarry : Z) (n ms : list Z) : option (list Z * Z) :=
  match n, ms with
  | ni :: n', m :: ms' =>
      s <- r_chk_i64 (scarry + wsub_i64 ni m) ;;
      let ni' := Z.land (wrap32 s) RADIX_MASK in
      '(r, c) <- r_sub_chain (Z.shiftr s 28) n' ms' ;;
      Some (ni' :: r, c)
  | _, _ => Some ([], scarry)
  end.
(* bignumber.rs lines 453-514: same with "carry += n[i] + m", m masked with ...fe for limb 8;
   the last carry is not used *)
Fixpoint r_add_chain (carry : Z) (n ms : list Z) : option (list Z * Z) :=
  match n, ms with
  | ni :: n', m :: ms' =>
      s <- r_chk_u64 (carry + wadd64 ni m) ;;
      let ni' := Z.land (wrap32 s) RADIX_MASK in
      '(r, c) <- r_add_chain (Z.shiftr s 28) n' ms' ;;
      Some (ni' :: r, c)
  | _, _ => Some ([], carry)
  end.
(* bignumber.rs lines 381-517 *)
Definition r_strong_reduce (n : bn) : option bn :=
  let n := weak_reduce n in
  '(l, scarry) <- r_sub_chain 0 (limbs n) P_LIMBS ;;
  let m := Z.land (wrap32 scarry) RADIX_MASK in
  let m8 := Z.land m 0xfffffffffffffffe in
  '(l, _) <- r_add_chain 0 l [m; m; m; m; m; m; m; m; m8; m; m; m; m; m; m; m] ;;
  of_limbs l.
(* bignumber.rs lines 14-19 *)
Definition r_low_bit (x : bn) : option Z :=
  y <- r_strong_reduce x ;;
  let '(BN y0 _ _ _ _ _ _ _ _ _ _ _ _ _ _ _) := y in
  Some (wsub32 0 (Z.land y0 1)).
(* bignumber.rs lines 519-541: note that y[15] is not or-ed in *)
Definition r_decaf_equal (n x : bn) : option Z :=
  y <- r_sub n x ;;
  y <- r_strong_reduce y ;;
  let '(BN y0 y1 y2 y3 y4 y5 y6 y7 y8 y9 y10 y11 y12 y13 y14 _) := y in
  let ret := 0 in
  let ret := Z.lor ret y0 in
  let ret := Z.lor ret y1 in
  let ret := Z.lor ret y2 in
  let ret := Z.lor ret y3 in
  let ret := Z.lor ret y4 in
  let ret := Z.lor ret y5 in
  let ret := Z.lor ret y6 in
  let ret := Z.lor ret y7 in
  let ret := Z.lor ret y8 in
  let ret := Z.lor ret y9 in
  let ret := Z.lor ret y10 in
  let ret := Z.lor ret y11 in
  let ret := Z.lor ret y12 in
  let ret := Z.lor ret y13 in
  let ret := Z.lor ret y14 in
  Some (is_zero_mask ret).
(* bignumber.rs lines 565-568 *)
Definition r_decaf_cond_negate (n : bn) (neg : Z) : option bn :=
  m <- r_sub BIG_ZERO n ;; Some (decaf_const_time_select n m neg).
Definition r_deserialize_return_mask (inp : list Z) : option (bn * Z) :=
  n <- of_limbs (des_limbs inp) ;;
  m <- r_constant_time_greater_or_equal_p n ;;
  Some (n, m).
Definition r_deserialize (inp : list Z) : option (bn * bool) :=
  '(n, mask) <- r_deserialize_return_mask inp ;; Some (n, mask =? LMASK).
Definition r_must_deserialize (inp : list Z) : option bn :=
  '(n, ok) <- r_deserialize inp ;; if ok : bool then Some n else None.
(* bignumber.rs lines 612-633: the for loop over the limbs i = k, k+1, ...; [ms] is MODULUS from
   position i on.  Returns the limbs, buffer and scarry at the end.  Non-wrapping: fill -= RADIX
   and (... >> 8) * 4. *)
Fixpoint r_dsa_loop (ms : list Z) (i : Z) (input : list Z) (mask fill j buffer scarry : Z)
  : option (list Z * Z * Z) :=
  match ms with
  | [] => Some ([], buffer, scarry)
  | m :: ms' =>
      '(fill, j, buffer) <- dsa_fill 57 input mask fill j buffer ;;
      let n := if i >=? N_LIMBS - 1 then wrap32 buffer
               else wrap32 (Z.land buffer (2 ^ RADIX - 1)) in
      fill <- r_chk_usize (fill - RADIX) ;;
      let buffer := Z.shiftr buffer RADIX in
      scarry <- r_chk_u32 (Z.shiftr (wsub32 (wadd32 (wrap32 scarry) n) m) 8 * 4) ;;
      '(r, b, s) <- r_dsa_loop ms' (i + 1) input mask fill j buffer scarry ;;
      Some (n :: r, b, s)
  end.
(* bignumber.rs lines 604-639 *)
Definition r_dsa_like_deserialize (input : list Z) (mask : Z) : option (bn * Z) :=
  '(l, buffer, scarry) <- r_dsa_loop MODULUS 0 input mask 0 0 0 0 ;;
  n <- of_limbs l ;;
  Some (n, Z.land (is_zero_mask (wrap32 buffer)) (not32 (is_zero_mask (wrap32 scarry)))).
(* bignumber.rs lines 648-657: k bytes still to write; x is the list of limbs from index j on.
   fill -= 8 is non-wrapping; the test j < N_LIMBS is "x is not empty". *)
Fixpoint r_ser_loop (k : nat) (x : list Z) (fill buffer : Z) : option (list Z) :=
  match k with
  | O => Some []
  | S k' =>
      let '(x, fill, buffer) :=
        match x with
        | xj :: x' =>
            if fill <? 8 then (x', fill + RADIX, Z.lor buffer (shl64 xj fill))
            else (x, fill, buffer)
        | [] => (x, fill, buffer)
        end in
      let item := Z.land buffer 0xff in
      fill <- r_chk_usize (fill - 8) ;;
      r <- r_ser_loop k' x fill (Z.shiftr buffer 8) ;;
      Some (item :: r)
  end.
(* bignumber.rs lines 641-659 *)
Definition r_dsa_like_serialize (n : bn) : option (list Z) :=
  x <- r_strong_reduce n ;;
  r_ser_loop 56 (limbs x) 0 0.

(* ---- ScalarModel.v ---- *)
(* scalar.rs lines 31-36: first loop of sub_extra (non-wrapping i64 operations); returns r and chain *)
Fixpoint r_sub_loop (chain : Z) (m s : list Z) : option (list Z * Z) :=
  match m, s with
  | mi :: m', si :: s' =>
      d <- r_chk_i64 (mi - si) ;;
      c <- r_chk_i64 (chain + d) ;;
      '(r, c') <- r_sub_loop (Z.shiftr c WORD_BITS) m' s' ;;
      Some (wrap32 c :: r, c')
  | _, _ => Some ([], chain)
  end.
(* scalar.rs lines 41-45: second loop of sub_extra *)
Fixpoint r_addback_loop (chain borrow : Z) (r qs : list Z) : option (list Z) :=
  match r, qs with
  | ri :: r', qi :: qs' =>
      d <- r_chk_i64 (ri + Z.land qi borrow) ;;
      c <- r_chk_i64 (chain + d) ;;
      t <- r_addback_loop (Z.shiftr c WORD_BITS) borrow r' qs' ;;
      Some (wrap32 c :: t)
  | _, _ => Some []
  end.
(* scalar.rs lines 29-47 *)
Definition r_sub_extra (minuend subtrahend : scalar) (carry : Z) : option scalar :=
  '(r, chain) <- r_sub_loop 0 minuend subtrahend ;;
  borrow <- r_chk_i64 (chain + carry) ;;
  r_addback_loop 0 borrow r SCALAR_Q.
(* scalar.rs lines 52-56: loop of add (non-wrapping u64 operations); returns r and chain *)
Fixpoint r_add_loop (chain : Z) (a b : list Z) : option (list Z * Z) :=
  match a, b with
  | ai :: a', bi :: b' =>
      d <- r_chk_u64 (ai + bi) ;;
      c <- r_chk_u64 (chain + d) ;;
      '(r, c') <- r_add_loop (Z.shiftr c WORD_BITS) a' b' ;;
      Some (wrap32 c :: r, c')
  | _, _ => Some ([], chain)
  end.
(* scalar.rs lines 49-59 *)
Definition r_sadd (a b : scalar) : option scalar :=
  '(r, chain) <- r_add_loop 0 a b ;;
  r_sub_extra r SCALAR_Q (wrap32 chain).
(* scalar.rs lines 61-64 *)
Definition r_ssub (a b : scalar) : option scalar := r_sub_extra a b 0.
Definition r_montgomery_multiply (x y : scalar) : option scalar :=
  let '(out, carry) := mont_loop x y create_zero_scalar 0 in
  r_sub_extra out SCALAR_Q carry.
(* scalar.rs lines 131-134 *)
Definition r_smul (x y : scalar) : option scalar :=
  s <- r_montgomery_multiply x y ;;
  r_montgomery_multiply s SCALAR_R2.
(* scalar.rs lines 158-162: the (unused) comparison loop of decode, kept for its overflow checks *)
Fixpoint r_decode_accum (accum : Z) (s qs : list Z) : option Z :=
  match s, qs with
  | si :: s', qi :: qs' =>
      d <- r_chk_i64 (si - qi) ;;
      a <- r_chk_i64 (accum + d) ;;
      r_decode_accum (Z.shiftr a WORD_BITS) s' qs'
  | _, _ => Some accum
  end.
(* scalar.rs lines 155-170 *)
Definition r_decode (b : list Z) : option scalar :=
  s <- decode_short b SCALAR_BYTES ;;
  _ <- r_decode_accum 0 s SCALAR_Q ;;
  r_smul s SCALAR_ONE.
(* scalar.rs lines 209-214: while loop; [fuel] bounds the number of 56-byte blocks *)
Fixpoint r_long_loop (fuel : nat) (b : list Z) (size : Z) (res : scalar) : option scalar :=
  if size >? 0 then
    match fuel with
    | O => None
    | S f =>
        size <- r_chk_usize (size - SCALAR_SER_BYTES) ;;
        res <- r_montgomery_multiply res SCALAR_R2 ;;
        y <- r_decode (skipn (Z.to_nat size) b) ;;
        res <- r_sadd res y ;;
        r_long_loop f b size res
    end
  else Some res.
(* scalar.rs lines 188-217 *)
Definition r_decode_long (b : list Z) : option scalar :=
  let b_len := Z.of_nat (length b) in
  let size := b_len - b_len mod SCALAR_SER_BYTES in
  if b_len =? 0 then Some create_zero_scalar
  else
    let size := if size =? b_len then size - SCALAR_SER_BYTES else size in
    res <- decode_short (skipn (Z.to_nat size) b) (b_len - size) ;;
    if b_len =? SCALAR_SER_BYTES then r_smul res SCALAR_ONE
    else r_long_loop (length b) b size res.

(* ---- ExtendedPoint.v ---- *)
(* extended_point.rs lines 65-76 *)
Definition r_pniels_to_extended (n : pniels) : option point :=
  let eu := add (nb (pn n)) (na (pn n)) in
  qy <- r_sub (nb (pn n)) (na (pn n)) ;;
  let qt := mul qy eu in
  let qx := mul (pnz n) qy in
  let qy := mul (pnz n) eu in
  let qz := square (pnz n) in
  Some (MkPoint qx qy qz qt).
(* extended_point.rs lines 102-122 *)
Definition r_double_internal (p : point) (before_double : bool) : option point :=
  let c := square (px p) in
  let a := square (py p) in
  let d := add_raw c a in
  let t := add_raw (px p) (py p) in
  let b := square t in
  b <- r_sub_x_bias b d 0x03 ;;
  t <- r_sub a c ;;
  let x := square (pz p) in
  let z := add_raw x x in
  a <- r_sub_x_bias z t 0x04 ;;
  let x := mul a b in
  let z := mul t a in
  let y := mul t d in
  let t := if negb before_double then mul b d else t in
  Some (MkPoint x y z t).
(* extended_point.rs lines 124-130 *)
Definition r_mod_equal (p1 p2 : point) : option bool :=
  let a := mul (py p1) (px p2) in
  let b := mul (px p1) (py p2) in
  valid <- r_decaf_equal a b ;;
  Some (valid =? DECAF_TRUE).
(* extended_point.rs lines 132-148 *)
Definition r_add_niels_to_extended (p : point) (np : niels) (before_double : bool) : option point :=
  b <- r_sub (py p) (px p) ;;
  let a := mul (na np) b in
  let b := add_raw (px p) (py p) in
  let y := mul (nb np) b in
  let x := mul (nc np) (pt p) in
  let c := add_raw a y in
  b <- r_sub y a ;;
  y <- r_sub (pz p) x ;;
  let a := add_raw x (pz p) in
  let z := mul a y in
  let x := mul y b in
  let y := mul a c in
  let t := if negb before_double then mul b c else pt p in
  Some (MkPoint x y z t).
(* extended_point.rs lines 150-166 *)
Definition r_sub_niels_from_extended_point (p : point) (np : niels) (before_double : bool)
  : option point :=
  b <- r_sub (py p) (px p) ;;
  let a := mul (nb np) b in
  let b := add_raw (px p) (py p) in
  let y := mul (na np) b in
  let x := mul (nc np) (pt p) in
  let c := add_raw a y in
  b <- r_sub y a ;;
  let y := add_raw (pz p) x in
  a <- r_sub (pz p) x ;;
  let z := mul a y in
  let x := mul y b in
  let y := mul a c in
  let t := if negb before_double then mul b c else pt p in
  Some (MkPoint x y z t).
(* extended_point.rs lines 168-176 *)
Definition r_add_projected_niels_to_extended (p : point) (np : pniels) (before_double : bool)
  : option point :=
  let tmp := mul (pz p) (pnz np) in
  r_add_niels_to_extended (MkPoint (px p) (py p) tmp (pt p)) (pn np) before_double.
(* extended_point.rs lines 178-186 *)
Definition r_sub_projected_niels_from_extended_point (p : point) (np : pniels) (before_double : bool)
  : option point :=
  let tmp := mul (pz p) (pnz np) in
  r_sub_niels_from_extended_point (MkPoint (px p) (py p) tmp (pt p)) (pn np) before_double.
(* extended_point.rs lines 188-212; "as u8" of ZERO_MASK & low_bit keeps a value < 256 *)
Definition r_eddsa_like_encode (p : point) : option (list Z) :=
  let x := square (px p) in
  let t := square (py p) in
  let u := add x t in
  let z := add (py p) (px p) in
  let y := square z in
  y <- r_sub u y ;;
  z <- r_sub t x ;;
  let x := square (pz p) in
  let t := add x x in
  t <- r_sub t z ;;
  let x := mul t y in
  let y := mul z u in
  let z := mul u t in
  z <- r_invert z ;;
  let t := mul x z in
  let x := mul y z in
  ser <- r_dsa_like_serialize x ;;
  lb <- r_low_bit t ;;
  Some (ser ++ [Z.land (Z.land ZERO_MASK lb) 0xff]).
(* extended_point.rs lines 214-230 *)
Definition r_is_on_curve (p : point) : option bool :=
  let a := mul (px p) (py p) in
  let b := mul (pz p) (pt p) in
  valid <- r_decaf_equal a b ;;
  let a := square (px p) in
  let b := square (py p) in
  a <- r_sub b a ;;
  let b := square (pt p) in
  c <- r_mul_w b (1 - EDWARDS_D) ;;
  let b := square (pz p) in
  b <- r_sub b c ;;
  v <- r_decaf_equal a b ;;
  let valid := Z.land valid v in
  v <- r_decaf_equal (pz p) BIG_ZERO ;;
  let valid := Z.land valid (not32 v) in
  Some (valid =? DECAF_TRUE).
(* extended_point.rs lines 232-242; (2 * EDWARDS_D) - 2 is a constant *)
Definition r_to_projected_niels (p : point) : option pniels :=
  a <- r_sub (py p) (px p) ;;
  let b := add (px p) (py p) in
  c <- r_mul_with_signed_curve_constant (pt p) (2 * EDWARDS_D - 2) ;;
  let z := add (pz p) (pz p) in
  Some (PNiels (Niels a b c) z).
(* extended_point.rs lines 253-256: n more table entries *)
Fixpoint r_window_loop (n : nat) (p_original : point) (step : pniels) : option (list pniels) :=
  match n with
  | O => Some []
  | S n' =>
      p_original <- r_add_projected_niels_to_extended p_original step false ;;
      e <- r_to_projected_niels p_original ;;
      r <- r_window_loop n' p_original step ;;
      Some (e :: r)
  end.
(* extended_point.rs lines 244-259 *)
Definition r_prepare_fixed_window (p : point) : option (list pniels) :=
  p_temp <- r_double_internal p false ;;
  step <- r_to_projected_niels p_temp ;;
  e <- r_to_projected_niels p ;;
  r <- r_window_loop 15 p step ;;
  Some (e :: r).
(* extended_point.rs lines 420-423 *)
Definition r_niels_conditional_negate (n : niels) (neg : Z) : option niels :=
  let '(a, b) := conditional_swap (na n) (nb n) neg in
  c <- r_conditional_negate (nc n) neg ;;
  Some (Niels a b c).
(* extended_point.rs lines 425-433 *)
Definition r_niels_to_extended (n : niels) : option point :=
  let y := add (nb n) (na n) in
  x <- r_sub (nb n) (na n) ;;
  let t := mul y x in
  Some (MkPoint x y BIG_ONE t).
(* four doublings without t and one with t: lines 295-298 *)
Definition r_double5 (p : point) : option point :=
  p <- r_double_internal p true ;;
  p <- r_double_internal p true ;;
  p <- r_double_internal p true ;;
  p <- r_double_internal p true ;;
  r_double_internal p false.
(* extended_point.rs lines 277-303: [out] is None as long as "first" is true *)
Fixpoint r_scalar_mul_loop (fuel : nat) (s : scalar) (multiples : list pniels) (i : Z)
  (out : option point) : option (option point) :=
  if i >=? 0 then
    match fuel with
    | O => None
    | S f =>
        '(bits, inv) <- window_digit s i ;;
        m <- znth multiples (Z.land bits 15) ;;
        n <- r_niels_conditional_negate (pn m) inv ;;
        let p_neg := PNiels n (pnz m) in
        out' <- (match out with
                 | None => r_pniels_to_extended p_neg
                 | Some o =>
                     o <- r_double5 o ;;
                     r_add_projected_niels_to_extended o p_neg false
                 end) ;;
        r_scalar_mul_loop f s multiples (i - 5) (Some out')
    end
  else Some out.
(* extended_point.rs lines 261-305; the start index is
   SCALAR_BITS - ((SCALAR_BITS - 1) % 5) - 1 *)
Definition r_point_scalar_mul (p : point) (s : scalar) : option point :=
  scalar1x <- r_sadd s scalar_adjustment ;;
  let scalar1x := halve scalar1x in
  multiples <- r_prepare_fixed_window p ;;
  r <- r_scalar_mul_loop 100 scalar1x multiples
         (SCALAR_BITS - (SCALAR_BITS - 1) mod 5 - 1) None ;;
  match r with
  | Some out => Some out
  | None => Some point_new
  end.
(* extended_point.rs lines 464-475: while loop of recode_wnaf; state (control, position, current).
   Non-wrapping: the i64 subtraction, position -= 1 (usize); [delta << pos] is an i32 shift. *)
Fixpoint r_recode_while (fuel : nat) (table_bits w : Z) (control : list smvt) (position current : Z)
  : option (list smvt * Z * Z) :=
  if Z.land current 0xffff =? 0 then Some (control, position, current)
  else
    match fuel with
    | O => None
    | S f =>
        pos <- trailing_zeroes_32 (wrap32 current) ;;
        let odd := Z.shiftr (wrap32 current) pos in
        let delta := Z.land odd (2 ^ (table_bits + 1) - 1) in
        let delta := if negb (Z.land odd (2 ^ (table_bits + 1)) =? 0)
                     then delta - 2 ^ (table_bits + 1) else delta in
        d <- r_chk_i64 (as_i64 current - as_i32 (wrap32 (Z.shiftl delta pos))) ;;
        let current := wrap64 d in
        control <- zupd control position (Smvt (pos + 16 * (w - 1)) delta) ;;
        position <- r_chk_usize (position - 1) ;;
        r_recode_while f table_bits w control position current
    end.
(* extended_point.rs lines 460-477: for w in w0..30 *)
Fixpoint r_recode_for (rounds : nat) (w : Z) (s : scalar) (table_bits : Z)
  (control : list smvt) (position current : Z) : option (list smvt * Z * Z) :=
  match rounds with
  | O => Some (control, position, current)
  | S n =>
      current <- (if w <? 28
                  then sw <- znth s (w / 2) ;;
                       r_chk_u64 (current + shl32 (Z.shiftr sw (16 * (w mod 2))) 16)
                  else Some current) ;;
      '(control, position, current) <- r_recode_while 20 table_bits w control position current ;;
      r_recode_for n (w + 1) s table_bits control position (Z.shiftr current 16)
  end.
(* extended_point.rs lines 448-485: returns the new control array and the result *)
Definition r_recode_wnaf (control : list smvt) (s : scalar) (table_bits : Z)
  : option (list smvt * Z) :=
  let table_size := 446 / (table_bits + 1) + 3 in
  let position := table_size - 1 in
  control <- zupd control position (Smvt (-1) 0) ;;
  let position := position - 1 in
  s0 <- znth s 0 ;;
  let current := Z.land s0 0xffff in
  '(control, position, _) <- r_recode_for 29 1 s table_bits control position current ;;
  let position := position + 1 in
  n <- r_chk_usize (table_size - position) ;;
  control <- recode_copy (Z.to_nat n) 0 position control ;;
  r <- r_chk_usize (n - 1) ;;
  Some (control, wrap32 r).
(* extended_point.rs lines 505-508: entries 2 .. 2^table_size - 1 *)
Fixpoint r_wnaf_loop (n : nat) (p : point) (tw_op : pniels) : option (list pniels) :=
  match n with
  | O => Some []
  | S n' =>
      p <- r_add_projected_niels_to_extended p tw_op false ;;
      e <- r_to_projected_niels p ;;
      r <- r_wnaf_loop n' p tw_op ;;
      Some (e :: r)
  end.
(* extended_point.rs lines 487-509 for table_size = 3 and an 8-entry dst, the only call
   (line 335); returns the whole table (every entry of dst is overwritten) *)
Definition r_decaf_prepare_wnaf_table (p : point) : option (list pniels) :=
  dst0 <- r_to_projected_niels p ;;
  p <- r_double_internal p false ;;
  tw_op <- r_to_projected_niels p ;;
  p <- r_add_projected_niels_to_extended p dst0 false ;;
  dst1 <- r_to_projected_niels p ;;
  r <- r_wnaf_loop 6 p tw_op ;;
  Some (dst0 :: dst1 :: r).
(* extended_point.rs lines 374-383 and 385-394: the digit of the variable table, then the digit of
   the fixed table.  (-addend) is a non-wrapping i64 negation. *)
Definition r_var_step (cv cp : bool) (i : Z) (c : smvt) (precmp_var : list pniels) (out : point)
  : option point :=
  if cv then
    if addend c >? 0 then
      e <- znth precmp_var (usize_half (addend c)) ;;
      r_add_projected_niels_to_extended out e (negb (i =? 0) && negb cp)
    else
      a <- r_chk_i64 (- addend c) ;;
      e <- znth precmp_var (usize_half a) ;;
      r_sub_projected_niels_from_extended_point out e (negb (i =? 0) && negb cp)
  else Some out.
Definition r_pre_step (cp : bool) (i : Z) (c : smvt) (out : point) : option point :=
  if cp then
    if addend c >? 0 then
      e <- znth DECAF_WNAF_TABLE (usize_half (addend c)) ;;
      r_add_niels_to_extended out e (negb (i =? 0))
    else
      a <- r_chk_i64 (- addend c) ;;
      e <- znth DECAF_WNAF_TABLE (usize_half a) ;;
      r_sub_niels_from_extended_point out e (negb (i =? 0))
  else Some out.
(* extended_point.rs lines 368-397 *)
Fixpoint r_double_mul_loop (fuel : nat) (control_var control_pre : list smvt)
  (precmp_var : list pniels) (i contv contp : Z) (out : point) : option point :=
  if i >=? 0 then
    match fuel with
    | O => None
    | S f =>
        c_v <- znth control_var contv ;;
        c_p <- znth control_pre contp ;;
        let cv := i =? power c_v in
        let cp := i =? power c_p in
        out <- r_double_internal out (negb (i =? 0) && negb (cv || cp)) ;;
        out <- r_var_step cv cp i c_v precmp_var out ;;
        out <- r_pre_step cp i c_p out ;;
        r_double_mul_loop f control_var control_pre precmp_var (i - 1)
          (if cv then contv + 1 else contv) (if cp then contp + 1 else contp) out
    end
  else Some out.
(* extended_point.rs lines 307-402 *)
Definition r_point_double_scalamul_non_secret (p : point) (scalar_pre scalar_var : scalar)
  : option point :=
  let control_var := repeat smvt_new 115 in
  let control_pre := repeat smvt_new 77 in
  '(control_pre, _) <- r_recode_wnaf control_pre scalar_pre 5 ;;
  '(control_var, _) <- r_recode_wnaf control_var scalar_var 3 ;;
  precmp_var <- r_decaf_prepare_wnaf_table p ;;
  cv0 <- znth control_var 0 ;;
  cp0 <- znth control_pre 0 ;;
  let index := Z.shiftr (addend cv0) 1 in
  let i := power cv0 in
  '(out, i, contv, contp) <-
    (if i >? power cp0 then
       e <- znth precmp_var (wrap64 index) ;;
       out <- r_pniels_to_extended e ;;
       Some (out, i, 1, 0)
     else if (i =? power cp0) && (i >=? 0) then
       e <- znth precmp_var (wrap64 index) ;;
       out <- r_pniels_to_extended e ;;
       n <- znth DECAF_WNAF_TABLE (usize_half (addend cp0)) ;;
       out <- r_add_niels_to_extended out n (negb (i =? 0)) ;;
       Some (out, i, 1, 1)
     else
       n <- znth DECAF_WNAF_TABLE (usize_half (addend cp0)) ;;
       out <- r_niels_to_extended n ;;
       Some (out, power cp0, 0, 1)) ;;
  if i <? 0 then Some identity_point
  else r_double_mul_loop 500 control_var control_pre precmp_var (i - 1) contv contp out.
(* extended_point.rs lines 513-568 *)
Definition r_eddsa_like_decode (src_org : list Z) : option (result point error) :=
  if negb (Z.of_nat (length src_org) =? 57) then Some (Err InvalidLengthError)
  else
    src56 <- znth src_org FIELD_BYTES ;;
    let low := not32 (is_zero_mask (Z.land ZERO_MASK src56)) in
    let src56 := Z.land src56 0x7f in
    src <- zupd src_org FIELD_BYTES src56 ;;
    let succ := is_zero_mask src56 in
    '(y, succ1) <- r_dsa_like_deserialize src 0 ;;
    let succ := Z.land succ succ1 in
    let x := square y in
    z <- r_sub BIG_ONE x ;;
    t <- r_mul_with_signed_curve_constant x EDWARDS_D ;;
    t <- r_sub BIG_ONE t ;;
    let x := mul z t in
    t <- r_isr x ;;
    let x := mul t z in
    lb <- r_low_bit x ;;
    x <- r_decaf_cond_negate x (Z.lxor (not32 lb) low) ;;
    let z := BIG_ONE in
    let c := square x in
    let a := square y in
    let d := add c a in
    let t := add y x in
    let b := square t in
    b <- r_sub b d ;;
    t <- r_sub a c ;;
    let x := square z in
    let z := add x x in
    a <- r_sub z d ;;
    let x := mul a b in
    let z := mul t a in
    let y := mul t d in
    let t := mul b d in
    let p := MkPoint x y z t in
    ok <- r_is_on_curve p ;;
    if negb ok || (succ =? DECAF_FALSE) then Some (Err DecodeError)
    else
      let scalar_one_forth := halve (halve SCALAR_ONE) in
      p <- r_point_scalar_mul p scalar_one_forth ;;
      Some (Ok p).
(* extended_point.rs lines 581-602: combs j, j+1, ...; [invert] is an i32 (the -1 cannot overflow) *)
Fixpoint r_comb_inner (rounds : nat) (j : Z) (s : scalar) (i : Z) (p : point) : option point :=
  match rounds with
  | O => Some p
  | S n =>
      tab <- comb_tab 5 0 s i j 0 ;;
      let r_invert := Z.shiftr (as_i32 tab) (DECAF_COMB_TEETH - 1) - 1 in
      let tab := Z.lxor tab (wrap32 r_invert) in
      let tab := Z.land tab (2 ^ (DECAF_COMB_TEETH - 1) - 1) in
      let index := Z.shiftl j (DECAF_COMB_TEETH - 1) + tab in
      np <- znth comb_base index ;;
      np <- r_niels_conditional_negate np (wrap32 r_invert) ;;
      p <- (if negb (i =? DECAF_COMB_SPACING - 1) || negb (j =? 0)
            then r_add_niels_to_extended p np ((j =? DECAF_COMB_NUMBER - 1) && negb (i =? 0))
            else r_niels_to_extended np) ;;
      r_comb_inner n (j + 1) s i p
  end.
(* extended_point.rs lines 576-603: i = rounds - 1, ..., 0 *)
Fixpoint r_comb_outer (rounds : nat) (s : scalar) (p : point) : option point :=
  match rounds with
  | O => Some p
  | S n =>
      let i := Z.of_nat n in
      p <- (if negb (i =? DECAF_COMB_SPACING - 1) then r_double_internal p false else Some p) ;;
      p <- r_comb_inner 5 0 s i p ;;
      r_comb_outer n s p
  end.
(* extended_point.rs lines 570-606 *)
Definition r_precomputed_scalar_mul (s : scalar) : option point :=
  scalar2 <- r_sadd s scalar_adjustment ;;
  let scalar2 := halve scalar2 in
  r_comb_outer 18 scalar2 point_new.

(* ---- Eddsa.v ---- *)
Section Hash.
Variable xof : list Z -> nat -> list Z.
(* eddsa.rs lines 39-102 *)
Definition r_dsa_verify (pubkey sig message : list Z) : option (result bool error) :=
  dp <- r_eddsa_like_decode pubkey ;;
  match dp with
  | Err InvalidLengthError => Some (Err InvalidPubkeyLengthError)
  | Err DecodeError => Some (Err DecodePubkeyError)
  | Err _ => None
  | Ok p =>
      p2 <- r_point_scalar_mul p scalar_four ;;
      sig1 <- slice sig 0 57 ;;
      sig2 <- slice sig 57 (57 + 57) ;;
      dr <- r_eddsa_like_decode sig1 ;;
      match dr with
      | Err InvalidLengthError => Some (Err InvalidSignatureLengthError)
      | Err DecodeError => Some (Err DecodeSignatureError)
      | Err _ => None
      | Ok r_point =>
          r_point <- r_point_scalar_mul r_point scalar_four ;;
          penc <- r_eddsa_like_encode p ;;
          let challenge := hash_with_dom xof (sig1 ++ penc ++ message) 114 in
          challenge_scalar <- r_decode_long challenge ;;
          challenge_scalar <- r_ssub SCALAR_ZERO challenge_scalar ;;
          responce_scalar <- r_decode_long sig2 ;;
          pk <- r_point_double_scalamul_non_secret p2 responce_scalar challenge_scalar ;;
          b <- r_mod_equal r_point pk ;;
          Some (Ok b)
      end
  end.
End Hash.

(* ---- Goldilocks.v ---- *)
(* goldilocks.rs lines 31-39 *)
Definition r_point_by_secret (p : list Z) : option point :=
  digest <- clamp p ;;
  r <- r_decode_long digest ;;
  let r := halve r in
  let r := halve r in
  r_precomputed_scalar_mul r.
(* goldilocks.rs lines 48-53 *)
Definition r_secret_to_public (sk : list Z) : option (list Z) :=
  h <- r_point_by_secret sk ;;
  r_eddsa_like_encode h.
Section Hash.
Variable xof : list Z -> nat -> list Z.
(* goldilocks.rs lines 55-57 *)
Definition r_private_to_public (pk : list Z) : option (list Z) :=
  s <- private_to_secret xof pk ;; r_secret_to_public s.
(* goldilocks.rs lines 70-94, and (with the same text) lines 108-132: everything after the secret
   scalar [sec], the nonce prefix [seed] and the public point [point] are known *)
Definition r_sign_tail (sec : scalar) (seed : list Z) (point : point) (message : list Z)
  : option (list Z) :=
  let nonce := hash_with_dom xof (seed ++ message) 114 in
  nonce_scalar <- r_decode_long nonce ;;
  let nonce_scalar2 := halve nonce_scalar in
  let nonce_scalar2 := halve nonce_scalar2 in
  np <- r_precomputed_scalar_mul nonce_scalar2 ;;
  nonce_point <- r_eddsa_like_encode np ;;
  penc <- r_eddsa_like_encode point ;;
  let challenge := hash_with_dom xof (nonce_point ++ penc ++ message) 114 in
  challenge_scalar <- r_decode_long challenge ;;
  challenge_scalar <- r_smul challenge_scalar sec ;;
  challenge_scalar <- r_sadd challenge_scalar nonce_scalar ;;
  Some (nonce_point ++ encode challenge_scalar).
(* goldilocks.rs lines 59-95 *)
Definition r_sign_by_private (pk message : list Z) : option (list Z) :=
  let secret := sha3 xof pk 114 in
  secret <- clamp secret ;;
  sk <- slice secret 0 57 ;;
  sec <- r_decode_long sk ;;
  seed <- slice secret 57 114 ;;
  point <- r_point_by_secret sk ;;
  r_sign_tail sec seed point message.
(* goldilocks.rs lines 97-133 *)
Definition r_sign_with_secret_and_nonce (secret n message : list Z) : option (list Z) :=
  s1 <- clamp secret ;;
  sec <- r_decode_long s1 ;;
  pub_point <- r_point_by_secret secret ;;
  r_sign_tail sec n pub_point message.
(* goldilocks.rs lines 135-141 *)
Definition r_ed448_derive_public (pk : list Z) : option (list Z) :=
  b <- znth pk (57 - 1) ;;
  if Z.land b 0x80 =? 0 then r_private_to_public pk else r_secret_to_public pk.
(* goldilocks.rs lines 143-152 *)
Definition r_ed448_sign (pk message : list Z) : option (list Z) :=
  b <- znth pk (57 - 1) ;;
  if Z.land b 0x80 =? 0 then r_sign_by_private pk message
  else
    digest <- clamp pk ;;
    r_sign_with_secret_and_nonce digest digest message.
(* goldilocks.rs lines 154-161 *)
Definition r_ed448_verify (pubkey sig message : list Z) : option (result bool error) :=
  if bytes_eqb pubkey zero_public_key || bytes_eqb sig zero_signature
  then Some (Err InvalidSignatureError)
  else r_dsa_verify xof pubkey sig message.
(* goldilocks.rs lines 163-179 *)
Definition r_ed448_verify_with_error (pubkey sig message : list Z) : option (result unit error) :=
  if bytes_eqb pubkey zero_public_key || bytes_eqb sig zero_signature
  then Some (Err InvalidSignatureError)
  else
    r <- r_dsa_verify xof pubkey sig message ;;
    match r with
    | Err e => Some (Err e)
    | Ok is_ok => if negb is_ok then Some (Err InvalidSignatureError) else Some (Ok tt)
    end.
End Hash.

(* ---- Lib.v ---- *)
Section Hash.
Variable xof : list Z -> nat -> list Z.
(* lib.rs lines 82-92 *)
Definition r_signing_from_str (str : list Z) : option signing_key :=
  private_key <- hex_to_private_key str ;;
  public_key <- r_ed448_derive_public xof private_key ;;
  Some (SigningKey (SecretKey private_key) (VerifyingKey public_key)).
(* lib.rs lines 97-108 *)
Definition r_signing_from_slice (s : list Z) : option signing_key :=
  private_key <- to_array57 s ;;
  public_key <- r_ed448_derive_public xof private_key ;;
  Some (SigningKey (SecretKey private_key) (VerifyingKey public_key)).
(* lib.rs lines 110-126 *)
Definition r_signing_from_bytes (s : list Z) : option (result signing_key error) :=
  if negb (Z.of_nat (length s) =? 57)
  then Some (Err (InvalidPrivKeyLengthErrro (Z.of_nat (length s))))
  else
    private_key <- to_array57 s ;;
    public_key <- r_ed448_derive_public xof private_key ;;
    Some (Ok (SigningKey (SecretKey private_key) (VerifyingKey public_key))).
(* lib.rs lines 57-61 *)
Definition r_signing_from_secret (s : secret_key) : option signing_key :=
  r_signing_from_slice (sk_key s).
(* lib.rs lines 128-136: [rng] is the 57 bytes that fill_bytes writes *)
Definition r_signing_random (rng : list Z) : option signing_key := r_signing_from_slice rng.
(* lib.rs lines 151-162 *)
Definition r_sign_prehash (s : signing_key) (prehash : list Z) : option (result signature error) :=
  sig <- r_ed448_sign xof (sk_key (sg_secret s)) prehash ;;
  if (Z.of_nat (length sig) =? 114) && (Z.of_nat (length (vk_key (sg_verifying s))) =? 57)
  then Some (Ok (Signature (sig ++ vk_key (sg_verifying s))))
  else None.
(* lib.rs lines 180-192, 204-216, 228-240; [input] is what String::deserialize returns *)
Definition r_signing_deserialize (f : format) (input : result (list Z) unit)
  : option (result signing_key unit) :=
  if human_readable f then
    match input with
    | Err e => Some (Err e)
    | Ok s => k <- r_signing_from_str s ;; Some (Ok k)
    end
  else Some (Err tt).
End Hash.
