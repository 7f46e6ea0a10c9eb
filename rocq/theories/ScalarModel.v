(* Model of /repo/src/scalar.rs.  A Scalar ([u32; 14]) is the list of its 14 words. *)
From Coq Require Import ZArith List Bool.
From Verif Require Import Base Constants32.
Import ListNotations.
Open Scope Z_scope.

Definition scalar := list Z.

(* scalar.rs lines 10-13 *)
Definition create_zero_scalar : scalar := SCALAR_ZERO.

(* scalar.rs lines 15-20 *)
Definition copy (a : scalar) : scalar := firstn 14 a ++ skipn 14 create_zero_scalar.

(* scalar.rs lines 23-27 *)
Definition set (w : Z) : scalar := w :: tl create_zero_scalar.

(* scalar.rs lines 31-36: first loop of sub_extra (non-wrapping i64 operations); returns r and chain *)
Fixpoint sub_loop (chain : Z) (m s : list Z) : option (list Z * Z) :=
  match m, s with
  | mi :: m', si :: s' =>
      d <- chk_i64 (mi - si) ;;
      c <- chk_i64 (chain + d) ;;
      '(r, c') <- sub_loop (Z.shiftr c WORD_BITS) m' s' ;;
      Some (wrap32 c :: r, c')
  | _, _ => Some ([], chain)
  end.
(* scalar.rs lines 41-45: second loop of sub_extra *)
Fixpoint addback_loop (chain borrow : Z) (r qs : list Z) : option (list Z) :=
  match r, qs with
  | ri :: r', qi :: qs' =>
      d <- chk_i64 (ri + Z.land qi borrow) ;;
      c <- chk_i64 (chain + d) ;;
      t <- addback_loop (Z.shiftr c WORD_BITS) borrow r' qs' ;;
      Some (wrap32 c :: t)
  | _, _ => Some []
  end.
(* scalar.rs lines 29-47 *)
Definition sub_extra (minuend subtrahend : scalar) (carry : Z) : option scalar :=
  '(r, chain) <- sub_loop 0 minuend subtrahend ;;
  borrow <- chk_i64 (chain + carry) ;;
  addback_loop 0 borrow r SCALAR_Q.

(* scalar.rs lines 52-56: loop of add (non-wrapping u64 operations); returns r and chain *)
Fixpoint add_loop (chain : Z) (a b : list Z) : option (list Z * Z) :=
  match a, b with
  | ai :: a', bi :: b' =>
      d <- chk_u64 (ai + bi) ;;
      c <- chk_u64 (chain + d) ;;
      '(r, c') <- add_loop (Z.shiftr c WORD_BITS) a' b' ;;
      Some (wrap32 c :: r, c')
  | _, _ => Some ([], chain)
  end.
(* scalar.rs lines 49-59 *)
Definition sadd (a b : scalar) : option scalar :=
  '(r, chain) <- add_loop 0 a b ;;
  sub_extra r SCALAR_Q (wrap32 chain).

(* scalar.rs lines 61-64 *)
Definition ssub (a b : scalar) : option scalar := sub_extra a b 0.

(* scalar.rs lines 70-77: first loop of halve (wrapping); returns s and chain *)
Fixpoint halve_loop (mask chain : Z) (s qs : list Z) : list Z * Z :=
  match s, qs with
  | si :: s', qi :: qs' =>
      let c := wadd64 chain (wadd64 si (Z.land qi mask)) in
      let '(r, c') := halve_loop mask (Z.shiftr c WORD_BITS) s' qs' in
      (wrap32 c :: r, c')
  | _, _ => ([], chain)
  end.
(* scalar.rs lines 78-82: shift right by one; the last word takes its top bit from chain *)
Fixpoint shift_loop (chain : Z) (s : list Z) : list Z :=
  match s with
  | [] => []
  | [x] => [Z.lor (Z.shiftr x 1) (wrap32 (shl64 chain (WORD_BITS - 1)))]
  | x :: ((y :: _) as t) => Z.lor (Z.shiftr x 1) (shl32 y (WORD_BITS - 1)) :: shift_loop chain t
  end.
(* scalar.rs lines 66-85 *)
Definition halve (s : scalar) : scalar :=
  let mask := wsub32 0 (Z.land (hd 0 s) 1) in
  let '(s, chain) := halve_loop mask 0 s SCALAR_Q in
  shift_loop chain s.

(* scalar.rs lines 93-103: out[j] += x_i * y[j] with carry chain; returns out and chain *)
Fixpoint mac_loop (xi chain : Z) (y out : list Z) : list Z * Z :=
  match y, out with
  | yj :: y', oj :: out' =>
      let c := wadd64 (wadd64 (wmul64 xi yj) oj) chain in
      let '(r, c') := mac_loop xi (Z.shiftr c WORD_BITS) y' out' in
      (wrap32 c :: r, c')
  | _, _ => ([], chain)
  end.
(* scalar.rs lines 88-129.  The second inner loop (lines 109-121) is the same chain with
   multiplicand and SCALAR_Q, storing one position lower: cell 0 is dropped. *)
Fixpoint mont_loop (x y out : list Z) (carry : Z) : list Z * Z :=
  match x with
  | [] => (out, carry)
  | xi :: x' =>
      let '(out, chain) := mac_loop xi 0 y out in
      let saved := wrap32 chain in
      let multiplicand := wmul32 (hd 0 out) MONTGOMERY_FACTOR in
      let '(out, chain) := mac_loop multiplicand 0 SCALAR_Q out in
      let chain := wadd64 (wadd64 saved carry) chain in
      let out := tl out ++ [wrap32 chain] in
      let carry := wrap32 (Z.shiftr chain WORD_BITS) in
      mont_loop x' y out carry
  end.
Definition montgomery_multiply (x y : scalar) : option scalar :=
  let '(out, carry) := mont_loop x y create_zero_scalar 0 in
  sub_extra out SCALAR_Q carry.

(* scalar.rs lines 131-134 *)
Definition smul (x y : scalar) : option scalar :=
  s <- montgomery_multiply x y ;;
  montgomery_multiply s SCALAR_R2.

(* scalar.rs lines 142-148: up to 4 bytes of one word; j = 4 - (rounds left).  Returns out and k. *)
Fixpoint short_word (rounds : nat) (j : Z) (b : list Z) (size k out : Z) : option (Z * Z) :=
  match rounds with
  | O => Some (out, k)
  | S n =>
      if k >=? size then Some (out, k)
      else
        bk <- znth b k ;;
        short_word n (j + 1) b size (k + 1) (Z.lor out (shl32 bk (8 * j)))
  end.
(* scalar.rs lines 140-150 *)
Fixpoint short_words (words : nat) (b : list Z) (size k : Z) : option (list Z) :=
  match words with
  | O => Some []
  | S n =>
      '(out, k) <- short_word 4 0 b size k 0 ;;
      r <- short_words n b size k ;;
      Some (out :: r)
  end.
(* scalar.rs lines 137-152 *)
Definition decode_short (b : list Z) (size : Z) : option scalar :=
  short_words 14 b size 0.

(* scalar.rs lines 158-162: the (unused) comparison loop of decode, kept for its overflow checks *)
Fixpoint decode_accum (accum : Z) (s qs : list Z) : option Z :=
  match s, qs with
  | si :: s', qi :: qs' =>
      d <- chk_i64 (si - qi) ;;
      a <- chk_i64 (accum + d) ;;
      decode_accum (Z.shiftr a WORD_BITS) s' qs'
  | _, _ => Some accum
  end.
Definition SCALAR_ONE : scalar := [1; 0; 0; 0; 0; 0; 0; 0; 0; 0; 0; 0; 0; 0].
(* scalar.rs lines 155-170 *)
Definition decode (b : list Z) : option scalar :=
  s <- decode_short b SCALAR_BYTES ;;
  _ <- decode_accum 0 s SCALAR_Q ;;
  smul s SCALAR_ONE.

(* scalar.rs lines 173-186: the 14 words as 56 bytes, then one zero byte *)
Definition encode (s : scalar) : list Z :=
  flat_map (fun w => [Z.land w 0xff; Z.land (Z.shiftr w 8) 0xff;
                      Z.land (Z.shiftr w 16) 0xff; Z.land (Z.shiftr w 24) 0xff]) s ++ [0].

(* scalar.rs lines 209-214: while loop; [fuel] bounds the number of 56-byte blocks *)
Fixpoint long_loop (fuel : nat) (b : list Z) (size : Z) (res : scalar) : option scalar :=
  if size >? 0 then
    match fuel with
    | O => None
    | S f =>
        size <- chk_usize (size - SCALAR_SER_BYTES) ;;
        res <- montgomery_multiply res SCALAR_R2 ;;
        y <- decode (skipn (Z.to_nat size) b) ;;
        res <- sadd res y ;;
        long_loop f b size res
    end
  else Some res.
(* scalar.rs lines 188-217 *)
Definition decode_long (b : list Z) : option scalar :=
  let b_len := Z.of_nat (length b) in
  let size := b_len - b_len mod SCALAR_SER_BYTES in
  if b_len =? 0 then Some create_zero_scalar
  else
    let size := if size =? b_len then size - SCALAR_SER_BYTES else size in
    res <- decode_short (skipn (Z.to_nat size) b) (b_len - size) ;;
    if b_len =? SCALAR_SER_BYTES then smul res SCALAR_ONE
    else long_loop (length b) b size res.
