(* Specification: the strings which stand for a point of order 1, 2 or 4 when the padding bits are zero: y
   is 0, 1 or p - 1, or 0 or 1 plus p (values below 2^448), with either sign bit. *)
From Coq Require Import ZArith List.
From Verif Require Import SpecField SpecBytes.
Import ListNotations.
Open Scope Z_scope.

Definition small_encodings : list (list Z) :=
  flat_map (fun y => [le_bytes 56 y ++ [0]; le_bytes 56 y ++ [128]]) [0; 1; p448 - 1; p448; p448 + 1].
