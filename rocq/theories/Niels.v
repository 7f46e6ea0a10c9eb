(* /repo/src/extended_point.rs lines 38-43: TwistedNiels. *)
From Verif Require Import Base.
Record niels : Set := Niels { na : bn; nb : bn; nc : bn }.
