(* Specification: everything an observer of branches, array indices, table entries and calls of the hash sees of signing
   and of key derivation, as a list.  Only the table entries depend on the secret key. *)
From Coq Require Import ZArith List Bool.
From Verif Require Import SpecScalar SpecBytes SpecTrace Trace.
Import ListNotations.
Open Scope Z_scope.

Definition count (n : nat) : list Z := map Z.of_nat (seq 0 n).
Definition down (n : nat) : list Z := rev (count n).
(* 14 words are read from size bytes; a word stops at the end of the bytes *)
Definition word_events (size w : Z) : list event :=
  flat_map (fun j => if 4 * w + j <? size then [Branch 143 false; Load 146 (4 * w + j)] else []) (count 4) ++
  (if 4 * w + 4 <=? size then [] else [Branch 143 true]).
Definition short_events (size : Z) : list event := flat_map (word_events size) (count 14).
(* 57 n bytes are read as a number: the last n bytes, then n blocks of 56 bytes from the end *)
Definition long_events (n : nat) : list event :=
  [Branch 192 false; Branch 195 false; Load 198 (56 * Z.of_nat n)] ++ short_events (Z.of_nat n) ++ [Branch 199 false] ++
  flat_map (fun i => [Branch 209 true; Load 212 (56 * i)] ++ short_events 56) (down n) ++ [Branch 209 false].
(* 18 rounds of 5 table entries, each with 5 bits below 2^446 of the recoded number *)
Definition tooth_events (bit : Z) : list event := if bit <? 446 then [Branch 585 true; Load 586 (bit / 32)] else [Branch 585 false].
Definition round_events (entry : Z -> Z -> Z) (i : Z) : list event :=
  Branch 577 (i <? 17) :: flat_map (fun j => flat_map (fun k => tooth_events (i + 18 * (5 * j + k))) (count 5) ++
    [Lookup (entry i j); Branch 597 ((i <? 17) || (0 <? j))]) (count 5).
Definition comb_events (entry : Z -> Z -> Z) : list event := flat_map (round_events entry) (down 18).
(* [s]B *)
Definition multiply_events (s : Z) : list event := comb_events (comb_address (comb_number s)).

Definition sign_events (seed : bool) (s r : Z) (message : nat) : list event :=
  [Branch 144 seed] ++ (if seed then [Hash 57 114] else []) ++ long_events 1 ++ (long_events 1 ++ multiply_events s) ++
  [Hash (10 + 57 + message) 114] ++ long_events 2 ++ multiply_events r ++ [Hash (10 + 57 + 57 + message) 114] ++ long_events 2.
Definition derive_events (seed : bool) (s : Z) : list event :=
  [Branch 136 seed] ++ (if seed then [Hash 57 57] else []) ++ long_events 1 ++ multiply_events s.
