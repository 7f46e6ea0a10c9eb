(* Specification: arithmetic in a fixed range of integers. *)
From Coq Require Import ZArith.
Open Scope Z_scope.

(* [op z] is z when z is in the range, a trap otherwise *)
Definition traps_outside (op : Z -> option Z) (lo hi : Z) : Prop :=
  forall z, (lo <= z < hi -> op z = Some z) /\ (~ lo <= z < hi -> op z = None).
(* the member of the range that is congruent to z *)
Definition wraps_into (op : Z -> Z) (lo hi : Z) : Prop := forall z, lo <= op z < hi /\ (hi - lo | op z - z).
