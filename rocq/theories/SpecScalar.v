(* Specification: the order of the base point (RFC 8032 section 5.2: L). *)
From Coq Require Import ZArith.
Open Scope Z_scope.
Definition q448 : Z :=
  2 ^ 446 - 13818066809895115352007386748515426880336692474882178609894547503885.
