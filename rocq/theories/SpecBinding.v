(* Specification: someone who may ask the hash function (a random function, sampled when it is asked) names one signature
   together with two pairs of a public key and a message, all of its own choice.  Nothing here is about the code. *)
From Coq Require Import ZArith List Bool.
From Verif Require Import SpecBytes SpecScalar SpecCurve SpecDecode SpecEd448 SpecUniform SpecQueries SpecForger.
Import ListNotations.
Open Scope Z_scope.

(* a public key, the point it stands for, a message; the same again; the signature *)
Record claim : Type := Claim {
  key1 : list Z; point1 : ept; message1 : list Z;
  key2 : list Z; point2 : ept; message2 : list Z;
  signature : list Z }.
Definition input1 (c : claim) : list Z := forged_input (point1 c) (signature c, message1 c).
Definition input2 (c : claim) : list Z := forged_input (point2 c) (signature c, message2 c).

Section Binding.
Variable n : nat.                                       (* the number of questions *)
Variable next : strategy.                               (* the next question, from the answers so far *)
Variable finish : list (list Z) -> claim.               (* the claim, from the n answers *)
(* the two questions of the verifier come last *)
Definition claim_questions : strategy := fun seen =>
  if Nat.ltb (length seen) n then next seen
  else if Nat.eqb (length seen) n then input1 (finish (firstn n seen)) else input2 (finish (firstn n seen)).
Definition claim_run (coins : list (list Z)) : list (list Z * list Z) := ask claim_questions coins [].
Definition claimed (coins : list (list Z)) : claim := finish (firstn n (map snd (claim_run coins))).
End Binding.
