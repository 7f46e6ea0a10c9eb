(* Specification: some string of a list occurs twice. *)
From Coq Require Import ZArith List Bool.
From Verif Require Import SpecUniform.
Import ListNotations.
Fixpoint repeats (l : list (list Z)) : bool :=
  match l with [] => false | x :: t => existsb (same_string x) t || repeats t end.
