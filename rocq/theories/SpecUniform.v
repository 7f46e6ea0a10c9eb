(* Specification: the equally likely outputs of a perfect byte generator. *)
From Coq Require Import ZArith List Bool.
From Verif Require Import SpecBytes.
Import ListNotations.
Open Scope Z_scope.

Definition all_bytes : list Z := map Z.of_nat (seq 0 256).
(* all strings of n bytes (not meant to be computed) *)
Fixpoint strings (n : nat) : list (list Z) :=
  match n with
  | O => [[]]
  | S m => flat_map (fun b => map (cons b) (strings m)) all_bytes
  end.
(* the number of outcomes with a property given by a boolean test *)
Fixpoint tally {A : Type} (test : A -> bool) (l : list A) : Z :=
  match l with [] => 0 | x :: t => (if test x then 1 else 0) + tally test t end.
Fixpoint same_string (a b : list Z) : bool :=
  match a, b with [], [] => true | x :: a', y :: b' => (x =? y) && same_string a' b' | _, _ => false end.
(* the integers 0, 1, ..., n - 1 (not meant to be computed) *)
Definition below (n : Z) : list Z := map Z.of_nat (seq 0 (Z.to_nat n)).
