(* Model of /repo/src/karatsuba_square_32.rs.  Generated from the Rust text, statement by statement
   (one Gallina [let] per Rust assignment, same order, same names; array cell x[i] is xi).
   A product of two values cast from u32 to u64 can not overflow u64, so it is written with
   plain [*]; all other u64 operations in the file are wrapping. *)
From Coq Require Import ZArith.
From Verif Require Import Base.
Open Scope Z_scope.

(* /repo/src/karatsuba_square_32.rs lines 3-288, karatsuba_square. *)
Definition karatsuba_square (a : bn) : bn :=
  let '(BN a0 a1 a2 a3 a4 a5 a6 a7 a8 a9 a10 a11 a12 a13 a14 a15) := a in
  let aa0 := wadd64 a0 a8 in
  let aa1 := wadd64 a1 a9 in
  let aa2 := wadd64 a2 a10 in
  let aa3 := wadd64 a3 a11 in
  let aa4 := wadd64 a4 a12 in
  let aa5 := wadd64 a5 a13 in
  let aa6 := wadd64 a6 a14 in
  let aa7 := wadd64 a7 a15 in
  let z2 := 0 in
  let z2 := wadd64 z2 (wmul64 a0 a0) in
  let z1 := wmul64 aa0 aa0 in
  let z1 := wsub64 z1 z2 in
  let z0 := wmul64 a8 a8 in
  let z0 := wadd64 z0 z2 in
  let z2 := 0 in
  let z2 := wadd64 z2 (shl64 (wmul64 aa7 aa1) 1) in
  let z2 := wadd64 z2 (shl64 (wmul64 aa6 aa2) 1) in
  let z2 := wadd64 z2 (shl64 (wmul64 aa5 aa3) 1) in
  let z2 := wadd64 z2 (wmul64 aa4 aa4) in
  let z1 := wadd64 z1 (shl64 (wmul64 a15 a9) 1) in
  let z1 := wadd64 z1 (shl64 (wmul64 a14 a10) 1) in
  let z1 := wadd64 z1 (shl64 (wmul64 a13 a11) 1) in
  let z1 := wadd64 z1 (wmul64 a12 a12) in
  let z1 := wadd64 z1 z2 in
  let z0 := wsub64 z0 (shl64 (wmul64 a7 a1) 1) in
  let z0 := wsub64 z0 (shl64 (wmul64 a6 a2) 1) in
  let z0 := wsub64 z0 (shl64 (wmul64 a5 a3) 1) in
  let z0 := wsub64 z0 (wmul64 a4 a4) in
  let z0 := wadd64 z0 z2 in
  let c0 := Z.land (wrap32 z0) RADIX_MASK in
  let c8 := Z.land (wrap32 z1) RADIX_MASK in
  let z0 := Z.shiftr z0 28 in
  let z1 := Z.shiftr z1 28 in
  let z2 := shl64 (wmul64 a1 a0) 1 in
  let z1 := wadd64 z1 (shl64 (wmul64 aa1 aa0) 1) in
  let z1 := wsub64 z1 z2 in
  let z0 := wadd64 z0 (shl64 (wmul64 a9 a8) 1) in
  let z0 := wadd64 z0 z2 in
  let z2 := 0 in
  let z2 := wadd64 z2 (wmul64 aa7 aa2) in
  let z2 := wadd64 z2 (wmul64 aa6 aa3) in
  let z2 := wadd64 z2 (wmul64 aa5 aa4) in
  let z2 := shl64 z2 1 in
  let z1 := wadd64 z1 (shl64 (wmul64 a15 a10) 1) in
  let z1 := wadd64 z1 (shl64 (wmul64 a14 a11) 1) in
  let z1 := wadd64 z1 (shl64 (wmul64 a13 a12) 1) in
  let z1 := wadd64 z1 z2 in
  let z0 := wsub64 z0 (shl64 (wmul64 a7 a2) 1) in
  let z0 := wsub64 z0 (shl64 (wmul64 a6 a3) 1) in
  let z0 := wsub64 z0 (shl64 (wmul64 a5 a4) 1) in
  let z0 := wadd64 z0 z2 in
  let c1 := Z.land (wrap32 z0) RADIX_MASK in
  let c9 := Z.land (wrap32 z1) RADIX_MASK in
  let z0 := Z.shiftr z0 28 in
  let z1 := Z.shiftr z1 28 in
  let z2 := 0 in
  let z2 := wadd64 z2 (shl64 (wmul64 a2 a0) 1) in
  let z2 := wadd64 z2 (wmul64 a1 a1) in
  let z1 := wadd64 z1 (shl64 (wmul64 aa2 aa0) 1) in
  let z1 := wadd64 z1 (wmul64 aa1 aa1) in
  let z1 := wsub64 z1 z2 in
  let z0 := wadd64 z0 (shl64 (wmul64 a10 a8) 1) in
  let z0 := wadd64 z0 (wmul64 a9 a9) in
  let z0 := wadd64 z0 z2 in
  let z2 := 0 in
  let z2 := wadd64 z2 (wmul64 aa7 aa3) in
  let z2 := wadd64 z2 (wmul64 aa6 aa4) in
  let z2 := shl64 z2 1 in
  let z2 := wadd64 z2 (wmul64 aa5 aa5) in
  let z1 := wadd64 z1 (shl64 (wmul64 a15 a11) 1) in
  let z1 := wadd64 z1 (shl64 (wmul64 a14 a12) 1) in
  let z1 := wadd64 z1 (wmul64 a13 a13) in
  let z1 := wadd64 z1 z2 in
  let z0 := wsub64 z0 (shl64 (wmul64 a7 a3) 1) in
  let z0 := wsub64 z0 (shl64 (wmul64 a6 a4) 1) in
  let z0 := wsub64 z0 (wmul64 a5 a5) in
  let z0 := wadd64 z0 z2 in
  let c2 := Z.land (wrap32 z0) RADIX_MASK in
  let c10 := Z.land (wrap32 z1) RADIX_MASK in
  let z0 := Z.shiftr z0 28 in
  let z1 := Z.shiftr z1 28 in
  let z2 := 0 in
  let z2 := wadd64 z2 (a3 * a0) in
  let z2 := wadd64 z2 (a2 * a1) in
  let z2 := shl64 z2 1 in
  let z1 := wadd64 z1 (shl64 (wmul64 aa3 aa0) 1) in
  let z1 := wadd64 z1 (shl64 (wmul64 aa2 aa1) 1) in
  let z1 := wsub64 z1 z2 in
  let z0 := wadd64 z0 (shl64 (wmul64 a11 a8) 1) in
  let z0 := wadd64 z0 (shl64 (wmul64 a10 a9) 1) in
  let z0 := wadd64 z0 z2 in
  let z2 := 0 in
  let z2 := wadd64 z2 (shl64 (wmul64 aa7 aa4) 1) in
  let z2 := wadd64 z2 (shl64 (wmul64 aa6 aa5) 1) in
  let z0 := wsub64 z0 (shl64 (wmul64 a7 a4) 1) in
  let z0 := wsub64 z0 (shl64 (wmul64 a6 a5) 1) in
  let z0 := wadd64 z0 z2 in
  let z1 := wadd64 z1 (shl64 (wmul64 a15 a12) 1) in
  let z1 := wadd64 z1 (shl64 (wmul64 a14 a13) 1) in
  let z1 := wadd64 z1 z2 in
  let c3 := Z.land (wrap32 z0) RADIX_MASK in
  let c11 := Z.land (wrap32 z1) RADIX_MASK in
  let z0 := Z.shiftr z0 28 in
  let z1 := Z.shiftr z1 28 in
  let z2 := 0 in
  let z2 := wadd64 z2 (shl64 (wmul64 a4 a0) 1) in
  let z2 := wadd64 z2 (shl64 (wmul64 a3 a1) 1) in
  let z2 := wadd64 z2 (wmul64 a2 a2) in
  let z1 := wadd64 z1 (shl64 (wmul64 aa4 aa0) 1) in
  let z1 := wadd64 z1 (shl64 (wmul64 aa3 aa1) 1) in
  let z1 := wadd64 z1 (wmul64 aa2 aa2) in
  let z1 := wsub64 z1 z2 in
  let z0 := wadd64 z0 (shl64 (wmul64 a12 a8) 1) in
  let z0 := wadd64 z0 (shl64 (wmul64 a11 a9) 1) in
  let z0 := wadd64 z0 (wmul64 a10 a10) in
  let z0 := wadd64 z0 z2 in
  let z2 := 0 in
  let z2 := wadd64 z2 (shl64 (wmul64 aa7 aa5) 1) in
  let z2 := wadd64 z2 (wmul64 aa6 aa6) in
  let z1 := wadd64 z1 (shl64 (wmul64 a15 a13) 1) in
  let z1 := wadd64 z1 (wmul64 a14 a14) in
  let z1 := wadd64 z1 z2 in
  let z0 := wsub64 z0 (shl64 (wmul64 a7 a5) 1) in
  let z0 := wsub64 z0 (wmul64 a6 a6) in
  let z0 := wadd64 z0 z2 in
  let c4 := Z.land (wrap32 z0) RADIX_MASK in
  let c12 := Z.land (wrap32 z1) RADIX_MASK in
  let z0 := Z.shiftr z0 28 in
  let z1 := Z.shiftr z1 28 in
  let z2 := 0 in
  let z2 := wadd64 z2 (shl64 (wmul64 a5 a0) 1) in
  let z2 := wadd64 z2 (shl64 (wmul64 a4 a1) 1) in
  let z2 := wadd64 z2 (shl64 (wmul64 a3 a2) 1) in
  let z1 := wadd64 z1 (shl64 (wmul64 aa5 aa0) 1) in
  let z1 := wadd64 z1 (shl64 (wmul64 aa4 aa1) 1) in
  let z1 := wadd64 z1 (shl64 (wmul64 aa3 aa2) 1) in
  let z1 := wsub64 z1 z2 in
  let z0 := wadd64 z0 (shl64 (wmul64 a13 a8) 1) in
  let z0 := wadd64 z0 (shl64 (wmul64 a12 a9) 1) in
  let z0 := wadd64 z0 (shl64 (wmul64 a11 a10) 1) in
  let z0 := wadd64 z0 z2 in
  let z2 := 0 in
  let z2 := wadd64 z2 (shl64 (wmul64 aa7 aa6) 1) in
  let z1 := wadd64 z1 (shl64 (wmul64 a15 a14) 1) in
  let z1 := wadd64 z1 z2 in
  let z0 := wsub64 z0 (shl64 (a7 * a6) 1) in
  let z0 := wadd64 z0 z2 in
  let c5 := Z.land (wrap32 z0) RADIX_MASK in
  let c13 := Z.land (wrap32 z1) RADIX_MASK in
  let z0 := Z.shiftr z0 28 in
  let z1 := Z.shiftr z1 28 in
  let z2 := 0 in
  let z2 := wadd64 z2 (shl64 (wmul64 a6 a0) 1) in
  let z2 := wadd64 z2 (shl64 (wmul64 a5 a1) 1) in
  let z2 := wadd64 z2 (shl64 (wmul64 a4 a2) 1) in
  let z2 := wadd64 z2 (wmul64 a3 a3) in
  let z1 := wadd64 z1 (shl64 (wmul64 aa6 aa0) 1) in
  let z1 := wadd64 z1 (shl64 (wmul64 aa5 aa1) 1) in
  let z1 := wadd64 z1 (shl64 (wmul64 aa4 aa2) 1) in
  let z1 := wadd64 z1 (wmul64 aa3 aa3) in
  let z1 := wsub64 z1 z2 in
  let z0 := wadd64 z0 (shl64 (wmul64 a14 a8) 1) in
  let z0 := wadd64 z0 (shl64 (wmul64 a13 a9) 1) in
  let z0 := wadd64 z0 (shl64 (wmul64 a12 a10) 1) in
  let z0 := wadd64 z0 (wmul64 a11 a11) in
  let z0 := wadd64 z0 z2 in
  let z2 := 0 in
  let z2 := wadd64 z2 (wmul64 aa7 aa7) in
  let z1 := wadd64 z1 (wmul64 a15 a15) in
  let z1 := wadd64 z1 z2 in
  let z0 := wsub64 z0 (wmul64 a7 a7) in
  let z0 := wadd64 z0 z2 in
  let c6 := Z.land (wrap32 z0) RADIX_MASK in
  let c14 := Z.land (wrap32 z1) RADIX_MASK in
  let z0 := Z.shiftr z0 28 in
  let z1 := Z.shiftr z1 28 in
  let z2 := 0 in
  let z2 := wadd64 z2 (shl64 (wmul64 a7 a0) 1) in
  let z2 := wadd64 z2 (shl64 (wmul64 a6 a1) 1) in
  let z2 := wadd64 z2 (shl64 (wmul64 a5 a2) 1) in
  let z2 := wadd64 z2 (shl64 (wmul64 a4 a3) 1) in
  let z1 := wadd64 z1 (shl64 (wmul64 aa7 aa0) 1) in
  let z1 := wadd64 z1 (shl64 (wmul64 aa6 aa1) 1) in
  let z1 := wadd64 z1 (shl64 (wmul64 aa5 aa2) 1) in
  let z1 := wadd64 z1 (shl64 (wmul64 aa4 aa3) 1) in
  let z1 := wsub64 z1 z2 in
  let z0 := wadd64 z0 (shl64 (wmul64 a15 a8) 1) in
  let z0 := wadd64 z0 (shl64 (wmul64 a14 a9) 1) in
  let z0 := wadd64 z0 (shl64 (wmul64 a13 a10) 1) in
  let z0 := wadd64 z0 (shl64 (wmul64 a12 a11) 1) in
  let z0 := wadd64 z0 z2 in
  let z2 := 0 in
  let z1 := wadd64 z1 z2 in
  let z0 := wadd64 z0 z2 in
  let c7 := Z.land (wrap32 z0) RADIX_MASK in
  let c15 := Z.land (wrap32 z1) RADIX_MASK in
  let z0 := Z.shiftr z0 28 in
  let z1 := Z.shiftr z1 28 in
  let z0 := wadd64 z0 z1 in
  let z0 := wadd64 z0 c8 in
  let z1 := wadd64 z1 c0 in
  let c8 := Z.land (wrap32 z0) RADIX_MASK in
  let c0 := Z.land (wrap32 z1) RADIX_MASK in
  let z0 := Z.shiftr z0 28 in
  let z1 := Z.shiftr z1 28 in
  let c9 := wadd32 c9 (wrap32 z0) in
  let c1 := wadd32 c1 (wrap32 z1) in
  BN c0 c1 c2 c3 c4 c5 c6 c7 c8 c9 c10 c11 c12 c13 c14 c15.
