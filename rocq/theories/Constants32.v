(* Model of /repo/src/constants32.rs (the constants that are used). *)
From Coq Require Import ZArith List.
From Verif Require Import Base.
Import ListNotations.
Open Scope Z_scope.

(* lines 7-13 *)
Definition LMASK : Z := 0xffffffff.
Definition ZERO_MASK : Z := 0x80.
Definition DECAF_TRUE : Z := 0xffffffff.
Definition DECAF_FALSE : Z := 0x00.
(* lines 15-18 *)
Definition N_LIMBS : Z := 16.
Definition SCALAR_LIMBS : Z := 14.
Definition RADIX : Z := 28.
(* line 20 *)
Definition EDWARDS_D : Z := -39081.
(* lines 30-43 *)
Definition FIELD_BYTES : Z := 56.
Definition SCALAR_SER_BYTES : Z := 56.
Definition SCALAR_BITS : Z := 446.
Definition SCALAR_BYTES : Z := 56.
Definition WORD_BITS : Z := 32.
Definition SCALAR_WORDS : Z := 14.
(* lines 45-49 *)
Definition DECAF_COMB_NUMBER : Z := 5.
Definition DECAF_COMB_TEETH : Z := 5.
Definition DECAF_COMB_SPACING : Z := 18.
Definition MONTGOMERY_FACTOR : Z := 0xae918bc5.
(* lines 51-53 *)
Definition BIG_ZERO : bn := BN 0 0 0 0 0 0 0 0 0 0 0 0 0 0 0 0.
Definition BIG_ONE : bn := BN 1 0 0 0 0 0 0 0 0 0 0 0 0 0 0 0.
(* lines 54-64 *)
Definition SCALAR_Q : list Z :=
  [0xab5844f3; 0x2378c292; 0x8dc58f55; 0x216cc272; 0xaed63690; 0xc44edb49; 0x7cca23e9;
   0xffffffff; 0xffffffff; 0xffffffff; 0xffffffff; 0xffffffff; 0xffffffff; 0x3fffffff].
Definition SCALAR_R2 : list Z :=
  [0x049b9b60; 0xe3539257; 0xc1b195d9; 0x7af32c4b; 0x88ea1859; 0x0d66de23; 0x5ee4d838;
   0xae17cf72; 0xa3c47c44; 0x1a9cc14b; 0xe4d070af; 0x2052bcb7; 0xf823b729; 0x3402a939].
Definition SCALAR_ZERO : list Z := [0; 0; 0; 0; 0; 0; 0; 0; 0; 0; 0; 0; 0; 0].
(* lines 65-68 *)
Definition MODULUS : list Z :=
  [0xffffff; 0xffffffff; 0xffffff; 0xffffffff; 0xffffff; 0xffffffff; 0xffffff; 0xffffffff;
   0xfffffe; 0xffffffff; 0xffffff; 0xffffffff; 0xffffff; 0xffffffff; 0xffffff; 0xffffffff].
