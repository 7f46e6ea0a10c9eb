(* Specification: a forger which may ask the hash function at inputs of its choice (a random function, sampled when it
   is asked), and what is obtained from two of its runs.  Nothing here is about the code. *)
From Coq Require Import ZArith List Bool.
From Coq Require Import Zpow_facts.
From Verif Require Import SpecField SpecBytes SpecScalar SpecCurve SpecDecode SpecEd448 SpecUniform SpecQueries.
Import ListNotations.
Open Scope Z_scope.

(* all vectors of m values out of a list *)
Fixpoint vectors {D : Type} (ds : list D) (m : nat) : list (list D) :=
  match m with O => [[]] | S k => flat_map (fun d => map (cons d) (vectors ds k)) ds end.

(* the inputs asked so far and their answers; a repeated input has its first answer *)
Fixpoint recall (x : list Z) (T : list (list Z * list Z)) : option (list Z) :=
  match T with [] => None | (y, a) :: T' => if same_string x y then Some a else recall x T' end.
(* the hash function with these answers, and with zeros elsewhere *)
Definition table_xof (T : list (list Z * list Z)) (x : list Z) (n : nat) : list Z :=
  firstn n (match recall x T with Some a => a | None => [] end ++ repeat 0 n).

(* the next input, given the answers so far *)
Definition strategy : Type := list (list Z) -> list Z.
(* coins: the answers to new inputs, one for each question; the result is the table after all questions *)
Fixpoint ask (next : strategy) (coins : list (list Z)) (T : list (list Z * list Z)) : list (list Z * list Z) :=
  match coins with
  | [] => T
  | c :: coins' =>
      let x := next (map snd T) in
      let a := match recall x T with Some a => a | None => c end in
      ask next coins' (T ++ [(x, a)])
  end.
(* the position of the first question for x *)
Fixpoint position (x : list Z) (T : list (list Z * list Z)) : option nat :=
  match T with [] => None | (y, _) :: T' => if same_string x y then Some O else option_map S (position x T') end.

Section Forger.
Variable A : ept.                                       (* the point of the public key *)
Variable n : nat.                                       (* the number of questions of the forger *)
Variable next : strategy.
Variable finish : list (list Z) -> list Z * list Z.     (* the signature and the message, from the n answers *)

(* the input which the verifier hashes for this output *)
Definition forged_input (out : list Z * list Z) : list Z :=
  rfc_dom ++ firstn 57 (fst out) ++ eencode (subgroup_part A) ++ snd out.
(* the forger asks n questions; the verifier asks one more *)
Definition questions : strategy := fun seen =>
  if Nat.ltb (length seen) n then next seen else forged_input (finish (firstn n seen)).
Definition run (coins : list (list Z)) : list (list Z * list Z) := ask questions coins [].
Definition output (coins : list (list Z)) : list Z * list Z := finish (firstn n (map snd (run coins))).
(* where the verifier's question was asked for the first time *)
Definition fork_at (coins : list (list Z)) : option nat := position (forged_input (output coins)) (run coins).
(* the second run: the same answers before this position, new ones from there on *)
Definition second (coins coins' : list (list Z)) : list (list Z) :=
  match fork_at coins with Some j => firstn j coins ++ skipn j coins' | None => coins' end.

(* a / b modulo q *)
Definition qdiv (a b : Z) : Z := (a * Zpow_mod (b mod q448) (q448 - 2) q448) mod q448.
Definition challenge_of (coins : list (list Z)) : Z :=
  le_val (table_xof (run coins) (forged_input (output coins)) 114).
Definition response_of (coins : list (list Z)) : Z := le_val (firstn 57 (skipn 57 (fst (output coins)))).
(* the number computed from the two runs *)
Definition extracted (coins coins' : list (list Z)) : Z :=
  let c2 := second coins coins' in
  qdiv (response_of coins - response_of c2) (challenge_of coins - challenge_of c2).
(* it is the discrete logarithm of the public key *)
Definition reveals (coins coins' : list (list Z)) : bool :=
  let P := emul (extracted coins coins') ebase in
  (fval (fst P) =? fval (fst (subgroup_part A))) && (fval (snd P) =? fval (snd (subgroup_part A))).
End Forger.
