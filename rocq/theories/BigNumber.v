(* Model of /repo/src/bignumber.rs. *)
From Coq Require Import ZArith List Bool.
From Verif Require Import Base Constants32 Karatsuba32 KaratsubaSquare32.
Import ListNotations.
Open Scope Z_scope.

(* bignumber.rs lines 10-12 *)
Definition create_zero_bignumber : bn := BIG_ZERO.

(* bignumber.rs lines 21-25 *)
Definition is_zero_mask (n : Z) : Z :=
  let nn := n in
  let nn := wsub64 nn 1 in
  wrap32 (Z.shiftr nn WORD_BITS).

(* bignumber.rs lines 27-49; RADIX_MASK * b and co1 - b are non-wrapping u32 operations *)
Definition bias (n : bn) (b : Z) : option bn :=
  co1 <- chk_u32 (RADIX_MASK * b) ;;
  co2 <- chk_u32 (co1 - b) ;;
  Some (bn_map2 wadd32 n
          (BN co1 co1 co1 co1 co1 co1 co1 co1 co2 co1 co1 co1 co1 co1 co1 co1)).

(* bignumber.rs lines 52-62 (dead code outside tests); n[4] + 1 is non-wrapping *)
Definition constant_time_greater_or_equal_p (n : bn) : option Z :=
  let '(BN n0 n1 n2 n3 n4 n5 n6 n7 _ _ _ _ _ _ _ _) := n in
  let ge := Z.land (Z.land (Z.land (Z.land LMASK n0) n1) n2) n3 in
  n4' <- chk_u32 (n4 + 1) ;;
  let ge := Z.lor (Z.land ge n4') (is_zero_mask (Z.lxor n4 RADIX_MASK)) in
  let ge := Z.land (Z.land (Z.land ge n5) n6) n7 in
  Some (not32 (is_zero_mask (Z.lxor ge RADIX_MASK))).

(* bignumber.rs lines 121-141 *)
Definition neg_raw (x : bn) : bn := bn_map2 wsub32 BIG_ZERO x.

(* bignumber.rs lines 158-178 *)
Definition add_raw (x y : bn) : bn := bn_map2 wadd32 x y.

(* bignumber.rs lines 184-204 *)
Definition sub_raw (x y : bn) : bn := bn_map2 wsub32 x y.

(* bignumber.rs lines 357-379; the assignments run from limb 15 down to 0, so each one reads
   the old value of the limb below, except limb 8 (and its carry into limb 9), which has
   already received tmp *)
Definition weak_reduce (n : bn) : bn :=
  let '(BN n0 n1 n2 n3 n4 n5 n6 n7 n8 n9 n10 n11 n12 n13 n14 n15) := n in
  let tmp := wrap32 (Z.shiftr n15 RADIX) in
  let n8 := wadd32 n8 tmp in
  let n15 := wadd32 (Z.land n15 RADIX_MASK) (Z.shiftr n14 RADIX) in
  let n14 := wadd32 (Z.land n14 RADIX_MASK) (Z.shiftr n13 RADIX) in
  let n13 := wadd32 (Z.land n13 RADIX_MASK) (Z.shiftr n12 RADIX) in
  let n12 := wadd32 (Z.land n12 RADIX_MASK) (Z.shiftr n11 RADIX) in
  let n11 := wadd32 (Z.land n11 RADIX_MASK) (Z.shiftr n10 RADIX) in
  let n10 := wadd32 (Z.land n10 RADIX_MASK) (Z.shiftr n9 RADIX) in
  let n9 := wadd32 (Z.land n9 RADIX_MASK) (Z.shiftr n8 RADIX) in
  let n8 := wadd32 (Z.land n8 RADIX_MASK) (Z.shiftr n7 RADIX) in
  let n7 := wadd32 (Z.land n7 RADIX_MASK) (Z.shiftr n6 RADIX) in
  let n6 := wadd32 (Z.land n6 RADIX_MASK) (Z.shiftr n5 RADIX) in
  let n5 := wadd32 (Z.land n5 RADIX_MASK) (Z.shiftr n4 RADIX) in
  let n4 := wadd32 (Z.land n4 RADIX_MASK) (Z.shiftr n3 RADIX) in
  let n3 := wadd32 (Z.land n3 RADIX_MASK) (Z.shiftr n2 RADIX) in
  let n2 := wadd32 (Z.land n2 RADIX_MASK) (Z.shiftr n1 RADIX) in
  let n1 := wadd32 (Z.land n1 RADIX_MASK) (Z.shiftr n0 RADIX) in
  let n0 := wadd32 (Z.land n0 RADIX_MASK) tmp in
  BN n0 n1 n2 n3 n4 n5 n6 n7 n8 n9 n10 n11 n12 n13 n14 n15.

(* bignumber.rs lines 143-145, 180-182, 206-212 *)
Definition neg (x : bn) : option bn :=
  b <- bias (neg_raw x) 2 ;; Some (weak_reduce b).
Definition add (x y : bn) : bn := weak_reduce (add_raw x y).
Definition sub (x y : bn) : option bn :=
  b <- bias (sub_raw x y) 2 ;; Some (weak_reduce b).
Definition sub_x_bias (x y : bn) (amt : Z) : option bn :=
  b <- bias (sub_raw x y) amt ;; Some (weak_reduce b).

(* bignumber.rs lines 214-220 *)
Definition square (x : bn) : bn := karatsuba_square x.
Definition mul (x y : bn) : bn := karatsuba_mul x y.

(* bignumber.rs lines 105-119.  The loop counter decreases by 2 from an even number (y - 1 or
   y - 2); y = 0 underflows in the else branch.  [fuel] counts loop rounds. *)
Fixpoint square_n_loop (fuel : nat) (n : bn) (y : Z) : option bn :=
  if y >? 0 then
    match fuel with
    | O => None
    | S f => y' <- chk_usize (y - 2) ;; square_n_loop f (square (square n)) y'
    end
  else Some n.
Definition square_n (x : bn) (y : Z) : option bn :=
  if Z.odd y then
    let n := square x in
    y' <- chk_usize (y - 1) ;; square_n_loop 200 n y'
  else
    let n := square (square x) in
    y' <- chk_usize (y - 2) ;; square_n_loop 200 n y'.

(* bignumber.rs lines 73-103; the last two assignments (l2, l0) are dead in the source *)
Definition isr (x : bn) : option bn :=
  let l1 := square x in
  let l2 := mul x l1 in
  let l1 := square l2 in
  let l2 := mul x l1 in
  l1 <- square_n l2 3 ;;
  let l0 := mul l2 l1 in
  l1 <- square_n l0 3 ;;
  let l0 := mul l2 l1 in
  l2 <- square_n l0 9 ;;
  let l1 := mul l0 l2 in
  let l0 := square l1 in
  let l2 := mul x l0 in
  l0 <- square_n l2 18 ;;
  let l2 := mul l1 l0 in
  l0 <- square_n l2 37 ;;
  let l1 := mul l2 l0 in
  l0 <- square_n l1 37 ;;
  let l1 := mul l2 l0 in
  l0 <- square_n l1 111 ;;
  let l2 := mul l1 l0 in
  let l0 := square l2 in
  let l1 := mul x l0 in
  l0 <- square_n l1 223 ;;
  let l1 := mul l2 l0 in
  Some l1.

(* bignumber.rs lines 64-70 *)
Definition invert (x : bn) : option bn :=
  let t1 := square x in
  t2 <- isr t1 ;;
  let t1 := square t2 in
  Some (mul t1 x).

(* bignumber.rs lines 222-339.  x[15] + x[7] (u32), accum0 += accum8 + n[8] and
   accum8 += n[0] (u64) are non-wrapping. *)
Definition mul_w (x : bn) (w : Z) : option bn :=
  let '(BN x0 x1 x2 x3 x4 x5 x6 x7 x8 x9 x10 x11 x12 x13 x14 x15) := x in
  let whi := wrap32 (Z.shiftr w RADIX) in
  let wlo := wrap32 (Z.land w RADIX_MASK) in
  let accum0 := wmul64 wlo x0 in
  let accum8 := wmul64 wlo x8 in
  let accum0 := wadd64 accum0 (wmul64 whi x15) in
  x15_7 <- chk_u32 (x15 + x7) ;;
  let accum8 := wadd64 accum8 (wmul64 whi x15_7) in
  let n0 := wrap32 (Z.land accum0 RADIX_MASK) in
  let accum0 := Z.shiftr accum0 RADIX in
  let n8 := wrap32 (Z.land accum8 RADIX_MASK) in
  let accum8 := Z.shiftr accum8 RADIX in
  (* 1 *)
  let accum0 := wadd64 accum0 (wmul64 wlo x1) in
  let accum8 := wadd64 accum8 (wmul64 wlo x9) in
  let accum0 := wadd64 accum0 (wmul64 whi x0) in
  let accum8 := wadd64 accum8 (wmul64 whi x8) in
  let n1 := wrap32 (Z.land accum0 RADIX_MASK) in
  let accum0 := Z.shiftr accum0 RADIX in
  let n9 := wrap32 (Z.land accum8 RADIX_MASK) in
  let accum8 := Z.shiftr accum8 RADIX in
  (* 2 *)
  let accum0 := wadd64 accum0 (wmul64 wlo x2) in
  let accum8 := wadd64 accum8 (wmul64 wlo x10) in
  let accum0 := wadd64 accum0 (wmul64 whi x1) in
  let accum8 := wadd64 accum8 (wmul64 whi x9) in
  let n2 := wrap32 (Z.land accum0 RADIX_MASK) in
  let accum0 := Z.shiftr accum0 RADIX in
  let n10 := wrap32 (Z.land accum8 RADIX_MASK) in
  let accum8 := Z.shiftr accum8 RADIX in
  (* 3 *)
  let accum0 := wadd64 accum0 (wmul64 wlo x3) in
  let accum8 := wadd64 accum8 (wmul64 wlo x11) in
  let accum0 := wadd64 accum0 (wmul64 whi x2) in
  let accum8 := wadd64 accum8 (wmul64 whi x10) in
  let n3 := wrap32 (Z.land accum0 RADIX_MASK) in
  let accum0 := Z.shiftr accum0 RADIX in
  let n11 := wrap32 (Z.land accum8 RADIX_MASK) in
  let accum8 := Z.shiftr accum8 RADIX in
  (* 4 *)
  let accum0 := wadd64 accum0 (wmul64 wlo x4) in
  let accum8 := wadd64 accum8 (wmul64 wlo x12) in
  let accum0 := wadd64 accum0 (wmul64 whi x3) in
  let accum8 := wadd64 accum8 (wmul64 whi x11) in
  let n4 := wrap32 (Z.land accum0 RADIX_MASK) in
  let accum0 := Z.shiftr accum0 RADIX in
  let n12 := wrap32 (Z.land accum8 RADIX_MASK) in
  let accum8 := Z.shiftr accum8 RADIX in
  (* 5 *)
  let accum0 := wadd64 accum0 (wmul64 wlo x5) in
  let accum8 := wadd64 accum8 (wmul64 wlo x13) in
  let accum0 := wadd64 accum0 (wmul64 whi x4) in
  let accum8 := wadd64 accum8 (wmul64 whi x12) in
  let n5 := wrap32 (Z.land accum0 RADIX_MASK) in
  let accum0 := Z.shiftr accum0 RADIX in
  let n13 := wrap32 (Z.land accum8 RADIX_MASK) in
  let accum8 := Z.shiftr accum8 RADIX in
  (* 6 *)
  let accum0 := wadd64 accum0 (wmul64 wlo x6) in
  let accum8 := wadd64 accum8 (wmul64 wlo x14) in
  let accum0 := wadd64 accum0 (wmul64 whi x5) in
  let accum8 := wadd64 accum8 (wmul64 whi x13) in
  let n6 := wrap32 (Z.land accum0 RADIX_MASK) in
  let accum0 := Z.shiftr accum0 RADIX in
  let n14 := wrap32 (Z.land accum8 RADIX_MASK) in
  let accum8 := Z.shiftr accum8 RADIX in
  (* 7 *)
  let accum0 := wadd64 accum0 (wmul64 wlo x7) in
  let accum8 := wadd64 accum8 (wmul64 wlo x15) in
  let accum0 := wadd64 accum0 (wmul64 whi x6) in
  let accum8 := wadd64 accum8 (wmul64 whi x14) in
  let n7 := wrap32 (Z.land accum0 RADIX_MASK) in
  let accum0 := Z.shiftr accum0 RADIX in
  let n15 := wrap32 (Z.land accum8 RADIX_MASK) in
  let accum8 := Z.shiftr accum8 RADIX in
  (* finish *)
  a8n8 <- chk_u64 (accum8 + n8) ;;
  accum0 <- chk_u64 (accum0 + a8n8) ;;
  let n8 := wrap32 (Z.land accum0 RADIX_MASK) in
  let n9 := wadd32 n9 (wrap32 (Z.shiftr accum0 RADIX)) in
  accum8 <- chk_u64 (accum8 + n0) ;;
  let n0 := wrap32 (Z.land accum8 RADIX_MASK) in
  let n1 := wadd32 n1 (wrap32 (Z.shiftr accum8 RADIX)) in
  Some (BN n0 n1 n2 n3 n4 n5 n6 n7 n8 n9 n10 n11 n12 n13 n14 n15).

(* bignumber.rs lines 341-347; -*c is a non-wrapping i64 negation *)
Definition mul_with_signed_curve_constant (x : bn) (c : Z) : option bn :=
  if c >? 0 then mul_w x c
  else
    c' <- chk_i64 (- c) ;;
    r <- mul_w x (wrap64 c') ;;
    sub BIG_ZERO r.

(* bignumber.rs lines 349-355: returns the new (n, x) *)
Definition conditional_swap (n x : bn) (swap : Z) : bn * bn :=
  let s := bn_map2 (fun xi ni => Z.land (Z.lxor xi ni) swap) x n in
  (bn_map2 Z.lxor n s, bn_map2 Z.lxor x s).

(* bignumber.rs lines 147-156 *)
Definition constant_time_select (x y : bn) (first : Z) : bn :=
  let a := x in
  let b := y in
  fst (conditional_swap b a first).
Definition conditional_negate (n : bn) (negate : Z) : option bn :=
  m <- neg n ;; Some (constant_time_select m n negate).

(* bignumber.rs lines 384-447: the 16 groups of three statements
   "scarry += n[i] - m; n[i] = scarry & MASK; scarry >>= 28" (the += is non-wrapping) are one
   pass over the limbs; m is 0xfffffff, and 0xffffffe for limb 8 *)
Definition P_LIMBS : list Z :=
  [0xfffffff; 0xfffffff; 0xfffffff; 0xfffffff; 0xfffffff; 0xfffffff; 0xfffffff; 0xfffffff;
   0xffffffe; 0xfffffff; 0xfffffff; 0xfffffff; 0xfffffff; 0xfffffff; 0xfffffff; 0xfffffff].
Fixpoint sub_chain (scarry : Z) (n ms : list Z) : option (list Z * Z) :=
  match n, ms with
  | ni :: n', m :: ms' =>
      s <- chk_i64 (scarry + wsub_i64 ni m) ;;
      let ni' := Z.land (wrap32 s) RADIX_MASK in
      '(r, c) <- sub_chain (Z.shiftr s 28) n' ms' ;;
      Some (ni' :: r, c)
  | _, _ => Some ([], scarry)
  end.
(* bignumber.rs lines 453-514: same with "carry += n[i] + m", m masked with ...fe for limb 8;
   the last carry is not used *)
Fixpoint add_chain (carry : Z) (n ms : list Z) : option (list Z * Z) :=
  match n, ms with
  | ni :: n', m :: ms' =>
      s <- chk_u64 (carry + wadd64 ni m) ;;
      let ni' := Z.land (wrap32 s) RADIX_MASK in
      '(r, c) <- add_chain (Z.shiftr s 28) n' ms' ;;
      Some (ni' :: r, c)
  | _, _ => Some ([], carry)
  end.
(* bignumber.rs lines 381-517 *)
Definition strong_reduce (n : bn) : option bn :=
  let n := weak_reduce n in
  '(l, scarry) <- sub_chain 0 (limbs n) P_LIMBS ;;
  let m := Z.land (wrap32 scarry) RADIX_MASK in
  let m8 := Z.land m 0xfffffffffffffffe in
  '(l, _) <- add_chain 0 l [m; m; m; m; m; m; m; m; m8; m; m; m; m; m; m; m] ;;
  of_limbs l.

(* bignumber.rs lines 14-19 *)
Definition low_bit (x : bn) : option Z :=
  y <- strong_reduce x ;;
  let '(BN y0 _ _ _ _ _ _ _ _ _ _ _ _ _ _ _) := y in
  Some (wsub32 0 (Z.land y0 1)).

(* bignumber.rs lines 519-541: note that y[15] is not or-ed in *)
Definition decaf_equal (n x : bn) : option Z :=
  y <- sub n x ;;
  y <- strong_reduce y ;;
  let '(BN y0 y1 y2 y3 y4 y5 y6 y7 y8 y9 y10 y11 y12 y13 y14 _) := y in
  let ret := 0 in
  let ret := Z.lor ret y0 in
  let ret := Z.lor ret y1 in
  let ret := Z.lor ret y2 in
  let ret := Z.lor ret y3 in
  let ret := Z.lor ret y4 in
  let ret := Z.lor ret y5 in
  let ret := Z.lor ret y6 in
  let ret := Z.lor ret y7 in
  let ret := Z.lor ret y8 in
  let ret := Z.lor ret y9 in
  let ret := Z.lor ret y10 in
  let ret := Z.lor ret y11 in
  let ret := Z.lor ret y12 in
  let ret := Z.lor ret y13 in
  let ret := Z.lor ret y14 in
  Some (is_zero_mask ret).

(* bignumber.rs lines 543-563 *)
Definition decaf_const_time_select (x y : bn) (neg : Z) : bn :=
  bn_map2 (fun xi yi => Z.lor (Z.land xi (not32 neg)) (Z.land yi neg)) x y.

(* bignumber.rs lines 565-568 *)
Definition decaf_cond_negate (n : bn) (neg : Z) : option bn :=
  m <- sub BIG_ZERO n ;; Some (decaf_const_time_select n m neg).

(* bignumber.rs lines 571-602 (dead code outside tests).  inp is a [u8; 56]. *)
Definition des7 (b0 b1 b2 b3 b4 b5 b6 : Z) : Z :=
  fold_left Z.lor [Z.shiftl b0 0; Z.shiftl b1 8; Z.shiftl b2 16; Z.shiftl b3 24;
                   Z.shiftl b4 32; Z.shiftl b5 40; Z.shiftl b6 48] 0.
Fixpoint des_limbs (inp : list Z) : list Z :=
  match inp with
  | b0 :: b1 :: b2 :: b3 :: b4 :: b5 :: b6 :: t =>
      let out := des7 b0 b1 b2 b3 b4 b5 b6 in
      Z.land (wrap32 out) RADIX_MASK :: wrap32 (Z.shiftr out 28) :: des_limbs t
  | _ => []
  end.
Definition deserialize_return_mask (inp : list Z) : option (bn * Z) :=
  n <- of_limbs (des_limbs inp) ;;
  m <- constant_time_greater_or_equal_p n ;;
  Some (n, m).
Definition deserialize (inp : list Z) : option (bn * bool) :=
  '(n, mask) <- deserialize_return_mask inp ;; Some (n, mask =? LMASK).
Definition must_deserialize (inp : list Z) : option bn :=
  '(n, ok) <- deserialize inp ;; if ok : bool then Some n else None.

(* bignumber.rs lines 613-621: inner while loop; state (fill, j, buffer).
   fill += 8 and j += 1 stay far below 2^64. *)
Fixpoint dsa_fill (fuel : nat) (input : list Z) (mask fill j buffer : Z)
  : option (Z * Z * Z) :=
  if (fill <? RADIX) && (j <? FIELD_BYTES) then
    match fuel with
    | O => None
    | S f =>
        sj <- znth input j ;;
        let sj := if j =? FIELD_BYTES - 1 then Z.land sj (Z.lnot mask) else sj in
        let buffer := Z.lor buffer (shl64 sj fill) in
        dsa_fill f input mask (fill + 8) (j + 1) buffer
    end
  else Some (fill, j, buffer).

(* bignumber.rs lines 612-633: the for loop over the limbs i = k, k+1, ...; [ms] is MODULUS from
   position i on.  Returns the limbs, buffer and scarry at the end.  Non-wrapping: fill -= RADIX
   and (... >> 8) * 4. *)
Fixpoint dsa_loop (ms : list Z) (i : Z) (input : list Z) (mask fill j buffer scarry : Z)
  : option (list Z * Z * Z) :=
  match ms with
  | [] => Some ([], buffer, scarry)
  | m :: ms' =>
      '(fill, j, buffer) <- dsa_fill 57 input mask fill j buffer ;;
      let n := if i >=? N_LIMBS - 1 then wrap32 buffer
               else wrap32 (Z.land buffer (2 ^ RADIX - 1)) in
      fill <- chk_usize (fill - RADIX) ;;
      let buffer := Z.shiftr buffer RADIX in
      scarry <- chk_u32 (Z.shiftr (wsub32 (wadd32 (wrap32 scarry) n) m) 8 * 4) ;;
      '(r, b, s) <- dsa_loop ms' (i + 1) input mask fill j buffer scarry ;;
      Some (n :: r, b, s)
  end.

(* bignumber.rs lines 604-639 *)
Definition dsa_like_deserialize (input : list Z) (mask : Z) : option (bn * Z) :=
  '(l, buffer, scarry) <- dsa_loop MODULUS 0 input mask 0 0 0 0 ;;
  n <- of_limbs l ;;
  Some (n, Z.land (is_zero_mask (wrap32 buffer)) (not32 (is_zero_mask (wrap32 scarry)))).

(* bignumber.rs lines 648-657: k bytes still to write; x is the list of limbs from index j on.
   fill -= 8 is non-wrapping; the test j < N_LIMBS is "x is not empty". *)
Fixpoint ser_loop (k : nat) (x : list Z) (fill buffer : Z) : option (list Z) :=
  match k with
  | O => Some []
  | S k' =>
      let '(x, fill, buffer) :=
        match x with
        | xj :: x' =>
            if fill <? 8 then (x', fill + RADIX, Z.lor buffer (shl64 xj fill))
            else (x, fill, buffer)
        | [] => (x, fill, buffer)
        end in
      let item := Z.land buffer 0xff in
      fill <- chk_usize (fill - 8) ;;
      r <- ser_loop k' x fill (Z.shiftr buffer 8) ;;
      Some (item :: r)
  end.

(* bignumber.rs lines 641-659 *)
Definition dsa_like_serialize (n : bn) : option (list Z) :=
  x <- strong_reduce n ;;
  ser_loop 56 (limbs x) 0 0.
