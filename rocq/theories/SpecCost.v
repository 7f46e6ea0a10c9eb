(* Specification: counting the entries of a list of operations. *)
From Coq Require Import List.
From Verif Require Import Cost.
Import ListNotations.

Definition doublings (t : list op) : nat := length (filter (fun o => match o with Doubling => true | _ => false end) t).
Definition additions (t : list op) : nat := length (filter (fun o => match o with Addition => true | _ => false end) t).
(* number of bytes read and written for each call of the hash, in order *)
Definition hashings (t : list op) : list (nat * nat) := flat_map (fun o => match o with Hashing n m => [(n, m)] | _ => [] end) t.
