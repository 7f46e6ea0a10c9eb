(* Specification: hexadecimal text (ASCII codes), both cases. *)
From Coq Require Import ZArith List.
Import ListNotations.
Open Scope Z_scope.

(* "0123456789abcdef" and "0123456789ABCDEF" *)
Definition lower_digits : list Z := [48; 49; 50; 51; 52; 53; 54; 55; 56; 57; 97; 98; 99; 100; 101; 102].
Definition upper_digits : list Z := [48; 49; 50; 51; 52; 53; 54; 55; 56; 57; 65; 66; 67; 68; 69; 70].
(* the character c stands for the digit v *)
Definition digit (c v : Z) : Prop :=
  exists n, v = Z.of_nat n /\ (nth_error lower_digits n = Some c \/ nth_error upper_digits n = Some c).
Definition is_digit (c : Z) : Prop := exists v, digit c v.
Inductive spells : list Z -> list Z -> Prop :=
| spells_nil : spells [] []
| spells_cons : forall c1 c2 h l s b, digit c1 h -> digit c2 l -> spells s b -> spells (c1 :: c2 :: s) (16 * h + l :: b).
(* the lower-case text of a byte string *)
Definition lower_text (b : list Z) : list Z :=
  concat (map (fun x => [nth (Z.to_nat (x / 16)) lower_digits 0; nth (Z.to_nat (x mod 16)) lower_digits 0]) b).
