(* Definitions for C95: what someone with the public key sees who asks the hash and the signer n questions, in the real game and
   in the simulated one of Game.v.  There is one coin more than there are questions; it is not used. *)
From Coq Require Import ZArith List Bool.
From Verif Require Import Base SpecBytes SpecScalar SpecCurve SpecEd448 SpecForger Goldilocks Game.
Import ListNotations.
Open Scope Z_scope.

(* the public key and the answers *)
Definition sight : Set := (list Z * list (list Z))%type.
Definition real_sight (n : nat) (next : list Z -> list (list Z) -> query) (key d : list Z) (coins : list (list Z * list Z)) : option sight :=
  match ed448_derive_public (table_xof [(key, d)]) key with
  | Some pub => Some (pub, answers (fold_left (real_step (next pub) key) (firstn n coins) (real_start key d)))
  | None => None
  end.
Definition expanded_sight (n : nat) (next : list Z -> list (list Z) -> query) (key : list Z) (coins : list (list Z * list Z)) : option sight :=
  match ed448_derive_public (table_xof []) key with
  | Some pub => Some (pub, answers (fold_left (real_step (next pub) key) (firstn n coins) (View [] [] [])))
  | None => None
  end.
(* made from the public key alone *)
Definition sim_sight (n : nat) (next : list Z -> list (list Z) -> query) (A : ept) (coins : list (list Z * Z)) : sight :=
  (eencode A, answers (sim_end n (next (eencode A)) A coins)).
Definition judge (W : sight -> bool) (v : option sight) : bool := match v with Some v => W v | None => false end.
(* the simulated run asks the hash for an input whose bytes 10 to 66 are a logarithm of A, and the first such *)
Definition sim_inputs (n : nat) (next : list Z -> list (list Z) -> query) (A : ept) (coins : list (list Z * Z)) : list (list Z) :=
  map fst (known (sim_end n (next (eencode A)) A coins)).
Definition sim_shows (n : nat) (next : list Z -> list (list Z) -> query) (A : ept) (coins : list (list Z * Z)) : bool :=
  existsb (shows A) (sim_inputs n next A coins).
Definition sim_shown (n : nat) (next : list Z -> list (list Z) -> query) (A : ept) (coins : list (list Z * Z)) : Z :=
  match find (shows A) (sim_inputs n next A coins) with Some x => read_from x | None => 0 end.
