(* Model of /repo/src/karatsuba_32.rs.  Generated from the Rust text, statement by statement
   (one Gallina [let] per Rust assignment, same order, same names; array cell x[i] is xi).
   A product of two values cast from u32 to u64 can not overflow u64, so it is written with
   plain [*]; all other u64 operations in the file are wrapping. *)
From Coq Require Import ZArith.
From Verif Require Import Base.
Open Scope Z_scope.

(* /repo/src/karatsuba_32.rs lines 3-367, karatsuba_mul. *)
Definition karatsuba_mul (a : bn) (b : bn) : bn :=
  let '(BN a0 a1 a2 a3 a4 a5 a6 a7 a8 a9 a10 a11 a12 a13 a14 a15) := a in
  let '(BN b0 b1 b2 b3 b4 b5 b6 b7 b8 b9 b10 b11 b12 b13 b14 b15) := b in
  let aa0 := wadd64 a0 a8 in
  let bb0 := wadd64 b0 b8 in
  let aa1 := wadd64 a1 a9 in
  let bb1 := wadd64 b1 b9 in
  let aa2 := wadd64 a2 a10 in
  let bb2 := wadd64 b2 b10 in
  let aa3 := wadd64 a3 a11 in
  let bb3 := wadd64 b3 b11 in
  let aa4 := wadd64 a4 a12 in
  let bb4 := wadd64 b4 b12 in
  let aa5 := wadd64 a5 a13 in
  let bb5 := wadd64 b5 b13 in
  let aa6 := wadd64 a6 a14 in
  let bb6 := wadd64 b6 b14 in
  let aa7 := wadd64 a7 a15 in
  let bb7 := wadd64 b7 b15 in
  let z2 := a0 * b0 in
  let z1 := wmul64 aa0 bb0 in
  let z1 := wsub64 z1 z2 in
  let z0 := a8 * b8 in
  let z0 := wadd64 z0 z2 in
  let z2 := 0 in
  let z2 := wadd64 z2 (wmul64 aa7 bb1) in
  let z2 := wadd64 z2 (wmul64 aa6 bb2) in
  let z2 := wadd64 z2 (wmul64 aa5 bb3) in
  let z2 := wadd64 z2 (wmul64 aa4 bb4) in
  let z2 := wadd64 z2 (wmul64 aa3 bb5) in
  let z2 := wadd64 z2 (wmul64 aa2 bb6) in
  let z2 := wadd64 z2 (wmul64 aa1 bb7) in
  let z1 := wadd64 z1 (a15 * b9) in
  let z1 := wadd64 z1 (a14 * b10) in
  let z1 := wadd64 z1 (a13 * b11) in
  let z1 := wadd64 z1 (a12 * b12) in
  let z1 := wadd64 z1 (a11 * b13) in
  let z1 := wadd64 z1 (a10 * b14) in
  let z1 := wadd64 z1 (a9 * b15) in
  let z1 := wadd64 z1 z2 in
  let z0 := wsub64 z0 (a7 * b1) in
  let z0 := wsub64 z0 (a6 * b2) in
  let z0 := wsub64 z0 (a5 * b3) in
  let z0 := wsub64 z0 (a4 * b4) in
  let z0 := wsub64 z0 (a3 * b5) in
  let z0 := wsub64 z0 (a2 * b6) in
  let z0 := wsub64 z0 (a1 * b7) in
  let z0 := wadd64 z0 z2 in
  let c0 := Z.land (wrap32 z0) RADIX_MASK in
  let c8 := Z.land (wrap32 z1) RADIX_MASK in
  let z0 := Z.shiftr z0 28 in
  let z1 := Z.shiftr z1 28 in
  let z2 := 0 in
  let z2 := wadd64 z2 (a1 * b0) in
  let z2 := wadd64 z2 (a0 * b1) in
  let z1 := wadd64 z1 (wmul64 aa1 bb0) in
  let z1 := wadd64 z1 (wmul64 aa0 bb1) in
  let z1 := wsub64 z1 z2 in
  let z0 := wadd64 z0 (a9 * b8) in
  let z0 := wadd64 z0 (a8 * b9) in
  let z0 := wadd64 z0 z2 in
  let z2 := 0 in
  let z2 := wadd64 z2 (wmul64 aa7 bb2) in
  let z2 := wadd64 z2 (wmul64 aa6 bb3) in
  let z2 := wadd64 z2 (wmul64 aa5 bb4) in
  let z2 := wadd64 z2 (wmul64 aa4 bb5) in
  let z2 := wadd64 z2 (wmul64 aa3 bb6) in
  let z2 := wadd64 z2 (wmul64 aa2 bb7) in
  let z1 := wadd64 z1 (a15 * b10) in
  let z1 := wadd64 z1 (a14 * b11) in
  let z1 := wadd64 z1 (a13 * b12) in
  let z1 := wadd64 z1 (a12 * b13) in
  let z1 := wadd64 z1 (a11 * b14) in
  let z1 := wadd64 z1 (a10 * b15) in
  let z1 := wadd64 z1 z2 in
  let z0 := wsub64 z0 (a7 * b2) in
  let z0 := wsub64 z0 (a6 * b3) in
  let z0 := wsub64 z0 (a5 * b4) in
  let z0 := wsub64 z0 (a4 * b5) in
  let z0 := wsub64 z0 (a3 * b6) in
  let z0 := wsub64 z0 (a2 * b7) in
  let z0 := wadd64 z0 z2 in
  let c1 := Z.land (wrap32 z0) RADIX_MASK in
  let c9 := Z.land (wrap32 z1) RADIX_MASK in
  let z0 := Z.shiftr z0 28 in
  let z1 := Z.shiftr z1 28 in
  let z2 := 0 in
  let z2 := wadd64 z2 (a2 * b0) in
  let z2 := wadd64 z2 (a1 * b1) in
  let z2 := wadd64 z2 (a0 * b2) in
  let z1 := wadd64 z1 (wmul64 aa2 bb0) in
  let z1 := wadd64 z1 (wmul64 aa1 bb1) in
  let z1 := wadd64 z1 (wmul64 aa0 bb2) in
  let z1 := wsub64 z1 z2 in
  let z0 := wadd64 z0 (a10 * b8) in
  let z0 := wadd64 z0 (a9 * b9) in
  let z0 := wadd64 z0 (a8 * b10) in
  let z0 := wadd64 z0 z2 in
  let z2 := 0 in
  let z2 := wadd64 z2 (wmul64 aa7 bb3) in
  let z2 := wadd64 z2 (wmul64 aa6 bb4) in
  let z2 := wadd64 z2 (wmul64 aa5 bb5) in
  let z2 := wadd64 z2 (wmul64 aa4 bb6) in
  let z2 := wadd64 z2 (wmul64 aa3 bb7) in
  let z1 := wadd64 z1 (a15 * b11) in
  let z1 := wadd64 z1 (a14 * b12) in
  let z1 := wadd64 z1 (a13 * b13) in
  let z1 := wadd64 z1 (a12 * b14) in
  let z1 := wadd64 z1 (a11 * b15) in
  let z1 := wadd64 z1 z2 in
  let z0 := wsub64 z0 (a7 * b3) in
  let z0 := wsub64 z0 (a6 * b4) in
  let z0 := wsub64 z0 (a5 * b5) in
  let z0 := wsub64 z0 (a4 * b6) in
  let z0 := wsub64 z0 (a3 * b7) in
  let z0 := wadd64 z0 z2 in
  let c2 := Z.land (wrap32 z0) RADIX_MASK in
  let c10 := Z.land (wrap32 z1) RADIX_MASK in
  let z0 := Z.shiftr z0 28 in
  let z1 := Z.shiftr z1 28 in
  let z2 := 0 in
  let z2 := wadd64 z2 (a3 * b0) in
  let z2 := wadd64 z2 (a2 * b1) in
  let z2 := wadd64 z2 (a1 * b2) in
  let z2 := wadd64 z2 (a0 * b3) in
  let z1 := wadd64 z1 (wmul64 aa3 bb0) in
  let z1 := wadd64 z1 (wmul64 aa2 bb1) in
  let z1 := wadd64 z1 (wmul64 aa1 bb2) in
  let z1 := wadd64 z1 (wmul64 aa0 bb3) in
  let z1 := wsub64 z1 z2 in
  let z0 := wadd64 z0 (a11 * b8) in
  let z0 := wadd64 z0 (a10 * b9) in
  let z0 := wadd64 z0 (a9 * b10) in
  let z0 := wadd64 z0 (a8 * b11) in
  let z0 := wadd64 z0 z2 in
  let z2 := 0 in
  let z2 := wadd64 z2 (wmul64 aa7 bb4) in
  let z2 := wadd64 z2 (wmul64 aa6 bb5) in
  let z2 := wadd64 z2 (wmul64 aa5 bb6) in
  let z2 := wadd64 z2 (wmul64 aa4 bb7) in
  let z0 := wsub64 z0 (a7 * b4) in
  let z0 := wsub64 z0 (a6 * b5) in
  let z0 := wsub64 z0 (a5 * b6) in
  let z0 := wsub64 z0 (a4 * b7) in
  let z0 := wadd64 z0 z2 in
  let z1 := wadd64 z1 (a15 * b12) in
  let z1 := wadd64 z1 (a14 * b13) in
  let z1 := wadd64 z1 (a13 * b14) in
  let z1 := wadd64 z1 (a12 * b15) in
  let z1 := wadd64 z1 z2 in
  let c3 := Z.land (wrap32 z0) RADIX_MASK in
  let c11 := Z.land (wrap32 z1) RADIX_MASK in
  let z0 := Z.shiftr z0 28 in
  let z1 := Z.shiftr z1 28 in
  let z2 := 0 in
  let z2 := wadd64 z2 (a4 * b0) in
  let z2 := wadd64 z2 (a3 * b1) in
  let z2 := wadd64 z2 (a2 * b2) in
  let z2 := wadd64 z2 (a1 * b3) in
  let z2 := wadd64 z2 (a0 * b4) in
  let z1 := wadd64 z1 (wmul64 aa4 bb0) in
  let z1 := wadd64 z1 (wmul64 aa3 bb1) in
  let z1 := wadd64 z1 (wmul64 aa2 bb2) in
  let z1 := wadd64 z1 (wmul64 aa1 bb3) in
  let z1 := wadd64 z1 (wmul64 aa0 bb4) in
  let z1 := wsub64 z1 z2 in
  let z0 := wadd64 z0 (a12 * b8) in
  let z0 := wadd64 z0 (a11 * b9) in
  let z0 := wadd64 z0 (a10 * b10) in
  let z0 := wadd64 z0 (a9 * b11) in
  let z0 := wadd64 z0 (a8 * b12) in
  let z0 := wadd64 z0 z2 in
  let z2 := 0 in
  let z2 := wadd64 z2 (wmul64 aa7 bb5) in
  let z2 := wadd64 z2 (wmul64 aa6 bb6) in
  let z2 := wadd64 z2 (wmul64 aa5 bb7) in
  let z1 := wadd64 z1 (a15 * b13) in
  let z1 := wadd64 z1 (a14 * b14) in
  let z1 := wadd64 z1 (a13 * b15) in
  let z1 := wadd64 z1 z2 in
  let z0 := wsub64 z0 (a7 * b5) in
  let z0 := wsub64 z0 (a6 * b6) in
  let z0 := wsub64 z0 (a5 * b7) in
  let z0 := wadd64 z0 z2 in
  let c4 := Z.land (wrap32 z0) RADIX_MASK in
  let c12 := Z.land (wrap32 z1) RADIX_MASK in
  let z0 := Z.shiftr z0 28 in
  let z1 := Z.shiftr z1 28 in
  let z2 := 0 in
  let z2 := wadd64 z2 (a5 * b0) in
  let z2 := wadd64 z2 (a4 * b1) in
  let z2 := wadd64 z2 (a3 * b2) in
  let z2 := wadd64 z2 (a2 * b3) in
  let z2 := wadd64 z2 (a1 * b4) in
  let z2 := wadd64 z2 (a0 * b5) in
  let z1 := wadd64 z1 (wmul64 aa5 bb0) in
  let z1 := wadd64 z1 (wmul64 aa4 bb1) in
  let z1 := wadd64 z1 (wmul64 aa3 bb2) in
  let z1 := wadd64 z1 (wmul64 aa2 bb3) in
  let z1 := wadd64 z1 (wmul64 aa1 bb4) in
  let z1 := wadd64 z1 (wmul64 aa0 bb5) in
  let z1 := wsub64 z1 z2 in
  let z0 := wadd64 z0 (a13 * b8) in
  let z0 := wadd64 z0 (a12 * b9) in
  let z0 := wadd64 z0 (a11 * b10) in
  let z0 := wadd64 z0 (a10 * b11) in
  let z0 := wadd64 z0 (a9 * b12) in
  let z0 := wadd64 z0 (a8 * b13) in
  let z0 := wadd64 z0 z2 in
  let z2 := 0 in
  let z2 := wadd64 z2 (wmul64 aa7 bb6) in
  let z2 := wadd64 z2 (wmul64 aa6 bb7) in
  let z1 := wadd64 z1 (a15 * b14) in
  let z1 := wadd64 z1 (a14 * b15) in
  let z1 := wadd64 z1 z2 in
  let z0 := wsub64 z0 (a7 * b6) in
  let z0 := wsub64 z0 (a6 * b7) in
  let z0 := wadd64 z0 z2 in
  let c5 := Z.land (wrap32 z0) RADIX_MASK in
  let c13 := Z.land (wrap32 z1) RADIX_MASK in
  let z0 := Z.shiftr z0 28 in
  let z1 := Z.shiftr z1 28 in
  let z2 := 0 in
  let z2 := wadd64 z2 (a6 * b0) in
  let z2 := wadd64 z2 (a5 * b1) in
  let z2 := wadd64 z2 (a4 * b2) in
  let z2 := wadd64 z2 (a3 * b3) in
  let z2 := wadd64 z2 (a2 * b4) in
  let z2 := wadd64 z2 (a1 * b5) in
  let z2 := wadd64 z2 (a0 * b6) in
  let z1 := wadd64 z1 (wmul64 aa6 bb0) in
  let z1 := wadd64 z1 (wmul64 aa5 bb1) in
  let z1 := wadd64 z1 (wmul64 aa4 bb2) in
  let z1 := wadd64 z1 (wmul64 aa3 bb3) in
  let z1 := wadd64 z1 (wmul64 aa2 bb4) in
  let z1 := wadd64 z1 (wmul64 aa1 bb5) in
  let z1 := wadd64 z1 (wmul64 aa0 bb6) in
  let z1 := wsub64 z1 z2 in
  let z0 := wadd64 z0 (a14 * b8) in
  let z0 := wadd64 z0 (a13 * b9) in
  let z0 := wadd64 z0 (a12 * b10) in
  let z0 := wadd64 z0 (a11 * b11) in
  let z0 := wadd64 z0 (a10 * b12) in
  let z0 := wadd64 z0 (a9 * b13) in
  let z0 := wadd64 z0 (a8 * b14) in
  let z0 := wadd64 z0 z2 in
  let z2 := 0 in
  let z2 := wadd64 z2 (wmul64 aa7 bb7) in
  let z1 := wadd64 z1 (a15 * b15) in
  let z1 := wadd64 z1 z2 in
  let z0 := wsub64 z0 (a7 * b7) in
  let z0 := wadd64 z0 z2 in
  let c6 := Z.land (wrap32 z0) RADIX_MASK in
  let c14 := Z.land (wrap32 z1) RADIX_MASK in
  let z0 := Z.shiftr z0 28 in
  let z1 := Z.shiftr z1 28 in
  let z2 := 0 in
  let z2 := wadd64 z2 (a7 * b0) in
  let z2 := wadd64 z2 (a6 * b1) in
  let z2 := wadd64 z2 (a5 * b2) in
  let z2 := wadd64 z2 (a4 * b3) in
  let z2 := wadd64 z2 (a3 * b4) in
  let z2 := wadd64 z2 (a2 * b5) in
  let z2 := wadd64 z2 (a1 * b6) in
  let z2 := wadd64 z2 (a0 * b7) in
  let z1 := wadd64 z1 (wmul64 aa7 bb0) in
  let z1 := wadd64 z1 (wmul64 aa6 bb1) in
  let z1 := wadd64 z1 (wmul64 aa5 bb2) in
  let z1 := wadd64 z1 (wmul64 aa4 bb3) in
  let z1 := wadd64 z1 (wmul64 aa3 bb4) in
  let z1 := wadd64 z1 (wmul64 aa2 bb5) in
  let z1 := wadd64 z1 (wmul64 aa1 bb6) in
  let z1 := wadd64 z1 (wmul64 aa0 bb7) in
  let z1 := wsub64 z1 z2 in
  let z0 := wadd64 z0 (a15 * b8) in
  let z0 := wadd64 z0 (a14 * b9) in
  let z0 := wadd64 z0 (a13 * b10) in
  let z0 := wadd64 z0 (a12 * b11) in
  let z0 := wadd64 z0 (a11 * b12) in
  let z0 := wadd64 z0 (a10 * b13) in
  let z0 := wadd64 z0 (a9 * b14) in
  let z0 := wadd64 z0 (a8 * b15) in
  let z0 := wadd64 z0 z2 in
  let z2 := 0 in
  let z1 := wadd64 z1 z2 in
  let z0 := wadd64 z0 z2 in
  let c7 := Z.land (wrap32 z0) RADIX_MASK in
  let c15 := Z.land (wrap32 z1) RADIX_MASK in
  let z0 := Z.shiftr z0 28 in
  let z1 := Z.shiftr z1 28 in
  let z0 := wadd64 z0 z1 in
  let z0 := wadd64 z0 c8 in
  let z1 := wadd64 z1 c0 in
  let c8 := Z.land (wrap32 z0) RADIX_MASK in
  let c0 := Z.land (wrap32 z1) RADIX_MASK in
  let z0 := Z.shiftr z0 28 in
  let z1 := Z.shiftr z1 28 in
  let c9 := wadd32 c9 (wrap32 z0) in
  let c1 := wadd32 c1 (wrap32 z1) in
  BN c0 c1 c2 c3 c4 c5 c6 c7 c8 c9 c10 c11 c12 c13 c14 c15.
