(* Specification: what an observer of the table entries read computes from their addresses.  An address leaves two digits
   to base 32; the number of SpecTrace is a sum of one part for each of the 90 digits, and each part has two values.
   Nothing here is about the code. *)
From Coq Require Import ZArith List.
From Verif Require Import SpecScalar SpecTrace.
Import ListNotations.
Open Scope Z_scope.

(* the part of the number which is digit d of round i, comb j *)
Definition digit_part (d i j : Z) : Z :=
  let part k := (d / 2 ^ k) mod 2 * 2 ^ (i + 18 * (5 * j + k)) in part 0 + part 1 + part 2 + part 3 + part 4.
(* the two parts with address a *)
Definition readings (a i j : Z) : list Z := [digit_part (15 - (a - 16 * j)) i j; digit_part (16 + (a - 16 * j)) i j].
(* rounds and combs in the order in which they are read *)
Definition reading_order : list (Z * Z) :=
  flat_map (fun i => map (fun j => (i, j)) [0; 1; 2; 3; 4]) [17; 16; 15; 14; 13; 12; 11; 10; 9; 8; 7; 6; 5; 4; 3; 2; 1; 0].
Definition parts (addresses : list Z) : list (list Z) := map (fun x => readings (fst x) (fst (snd x)) (snd (snd x))) (combine addresses reading_order).
(* all sums of one value from each list *)
Fixpoint all_sums (l : list (list Z)) : list Z :=
  match l with [] => [0] | c :: t => flat_map (fun x => map (Z.add x) (all_sums t)) c end.
Definition first_half (addresses : list Z) : list Z := all_sums (firstn 45 (parts addresses)).
Definition second_half (addresses : list Z) : list Z := all_sums (skipn 45 (parts addresses)).
(* the scalar with number N *)
Definition scalar_of_number (N : Z) : Z := (4 * (2 * N - (2 ^ 450 - 1))) mod q448.
