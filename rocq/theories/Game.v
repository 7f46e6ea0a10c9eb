(* Definitions for C85 to C87: a forger which may ask the hash (a random function, sampled when it is asked) and the signer.
   The real game calls the modelled code (ed448_derive_public, ed448_sign, ed448_verify) on the table of the hash;
   the simulated game uses the public key only. *)
From Coq Require Import ZArith List Bool.
From Verif Require Import SpecField SpecBytes SpecScalar SpecCurve SpecDecode SpecEd448 SpecUniform SpecQueries SpecForger.
From Verif Require Import Base Errors Goldilocks.
Import ListNotations.
Open Scope Z_scope.

Inductive query : Set := Hash (x : list Z) | Sign (m : list Z).
(* tab: for each step the new inputs and answers of the hash; answers: what the forger was told; signed: the messages and
   their signatures *)
Record view : Set := View { tab : list (list (list Z * list Z)); answers : list (list Z); signed : list (list Z * list Z) }.
Definition known (st : view) : list (list Z * list Z) := concat (tab st).
Definition sampled (T : list (list Z * list Z)) (x c : list Z) : list Z := match recall x T with Some a => a | None => c end.
Definition is_signed (st : view) (m : list Z) : bool := existsb (fun p => same_string m (fst p)) (signed st).
(* a signature of this message with the same R was given out *)
Definition is_given (st : view) (sig m : list Z) : bool :=
  existsb (fun p => same_string m (fst p) && same_string (firstn 57 sig) (firstn 57 (snd p))) (signed st).
Definition ask_hash (st : view) (x c : list Z) : view :=
  let a := sampled (known st) x c in View (tab st ++ [[(x, a)]]) (answers st ++ [a]) (signed st).
(* each message is signed once (the signer is deterministic: the forger can keep the signature) *)
Definition refuse (st : view) : view := View (tab st ++ [[]]) (answers st ++ [[]]) (signed st).

(* the keys which are hashed *)
Definition seeds : list (list Z) := filter (fun k => negb (enc_sign k)) (strings 57).

(* C86: derive, sign and verify with one hash; then with a random digest of the key and a random answer for the nonce *)
Definition honest_ok (H : list Z -> nat -> list Z) (key m : list Z) : bool :=
  match ed448_derive_public H key, ed448_sign H key m with
  | Some pub, Some sig => match ed448_verify H pub sig m with Some (Ok true) => true | _ => false end
  | _, _ => false
  end.
Definition seed_run (key m : list Z) (T : list (list Z * list Z)) (w : list Z * list Z) : bool :=
  honest_ok (table_xof ((key, fst w) :: (rfc_dom ++ skipn 57 (fst w) ++ m, snd w) :: T)) key m.
(* keys which are the secret scalar itself *)
Definition expanded : list (list Z) := filter enc_sign (strings 57).
Definition expanded_run (m : list Z) (T : list (list Z * list Z)) (w : list Z * list Z) : bool :=
  honest_ok (table_xof ((rfc_dom ++ le_bytes 57 (secret_scalar (fst w)) ++ m, snd w) :: T)) (fst w) m.

Section Game.
Variable n : nat.                                       (* questions of the forger *)
Variable next : list (list Z) -> query.                 (* the next question, from the answers so far *)
Variable finish : list (list Z) -> list Z * list Z.     (* the signature and the message in the end *)
(* further conditions on the forgery: the public key, the answer for its challenge, the signature, the message *)
Variable exact : list Z -> list Z -> list Z -> list Z -> bool.

(* the end: the verifier asks for the challenge of the forgery *)
Definition final_input (A : ept) (st : view) : list Z := forged_input A (finish (answers st)).
Definition final (pub : list Z) (A : ept) (st : view) (c : list Z) : bool :=
  let sig := fst (finish (answers st)) in let m := snd (finish (answers st)) in
  let a := sampled (known st) (final_input A st) c in
  negb (is_given st sig m) &&
  match ed448_verify (table_xof (known st ++ [(final_input A st, a)])) pub sig m with Some (Ok true) => true | _ => false end &&
  exact pub a sig m.

(* the real game: c answers a question for the hash and the challenge of a signature, r the question for its nonce *)
Definition real_sign (key : list Z) (st : view) (m c r : list Z) : view :=
  let T := known st in
  let i := length (derive_inputs key) in
  let nonce := nth i (sign_inputs (table_xof T) key m) [] in
  let T1 := T ++ [(nonce, sampled T nonce r)] in
  let challenge := nth (S i) (sign_inputs (table_xof T1) key m) [] in
  let a2 := sampled T1 challenge c in
  let T2 := T1 ++ [(challenge, a2)] in
  let sig := match ed448_sign (table_xof T2) key m with Some sig => sig | None => [] end in
  View (tab st ++ [[(nonce, sampled T nonce r); (challenge, a2)]]) (answers st ++ [sig]) (signed st ++ [(m, sig)]).
Definition real_step (key : list Z) (st : view) (coin : list Z * list Z) : view :=
  match next (answers st) with
  | Hash x => ask_hash st x (fst coin)
  | Sign m => if is_signed st m then refuse st else real_sign key st m (fst coin) (snd coin)
  end.
(* the key is hashed first, with answer d *)
Definition real_start (key d : list Z) : view := View [[(key, d)]] [] [].
Definition real_wins (key d : list Z) (coins : list (list Z * list Z)) : bool :=
  match ed448_derive_public (table_xof [(key, d)]) key with
  | Some pub => final pub (emul (key_scalar (table_xof [(key, d)]) key) ebase)
                  (fold_left (real_step key) (firstn n coins) (real_start key d)) (fst (nth n coins ([], [])))
  | None => false
  end.
(* C87: a key which is the secret scalar itself is not hashed *)
Definition real_expanded (key : list Z) (coins : list (list Z * list Z)) : bool :=
  match ed448_derive_public (table_xof []) key with
  | Some pub => final pub (emul (key_scalar (table_xof []) key) ebase)
                  (fold_left (real_step key) (firstn n coins) (View [] [] [])) (fst (nth n coins ([], [])))
  | None => false
  end.

(* the simulated game for the point A: S is chosen first, and R is made to fit *)
Definition sim_sign (A : ept) (st : view) (m c : list Z) (S : Z) : view :=
  let R := eadd (emul S ebase) (eneg (emul (le_val c) A)) in
  let sig := eencode R ++ le_bytes 57 S in
  View (tab st ++ [[(rfc_dom ++ eencode R ++ eencode A ++ m, c)]]) (answers st ++ [sig]) (signed st ++ [(m, sig)]).
Definition sim_step (A : ept) (st : view) (coin : list Z * Z) : view :=
  match next (answers st) with
  | Hash x => ask_hash st x (fst coin)
  | Sign m => if is_signed st m then refuse st else sim_sign A st m (fst coin) (snd coin)
  end.
Definition sim_end (A : ept) (coins : list (list Z * Z)) : view := fold_left (sim_step A) (firstn n coins) (View [] [] []).
Definition sim_wins (A : ept) (coins : list (list Z * Z)) : bool :=
  final (eencode A) A (sim_end A coins) (fst (nth n coins ([], 0))).

(* two simulated runs, with new coins from the step of the question for the challenge on *)
Fixpoint step_of (x : list Z) (tab : list (list (list Z * list Z))) : option nat :=
  match tab with [] => None | e :: tab' => match recall x e with Some _ => Some O | None => option_map S (step_of x tab') end end.
Definition sim_challenge (A : ept) (coins : list (list Z * Z)) : Z :=
  let st := sim_end A coins in le_val (sampled (known st) (final_input A st) (fst (nth n coins ([], 0)))).
Definition sim_response (A : ept) (coins : list (list Z * Z)) : Z :=
  le_val (firstn 57 (skipn 57 (fst (finish (answers (sim_end A coins)))))).
Definition sim_fork (A : ept) (coins : list (list Z * Z)) : nat :=
  match step_of (final_input A (sim_end A coins)) (tab (sim_end A coins)) with Some j => j | None => n end.
Definition sim_second (A : ept) (coins coins' : list (list Z * Z)) : list (list Z * Z) :=
  firstn (sim_fork A coins) coins ++ skipn (sim_fork A coins) coins'.
Definition sim_extracted (A : ept) (coins coins' : list (list Z * Z)) : Z :=
  let c2 := sim_second A coins coins' in
  qdiv (sim_response A coins - sim_response A c2) (sim_challenge A coins - sim_challenge A c2).
Definition sim_reveals (A : ept) (coins coins' : list (list Z * Z)) : bool :=
  let P := emul (sim_extracted A coins coins') ebase in
  (fval (fst P) =? fval (fst A)) && (fval (snd P) =? fval (snd A)).
(* C87: a question for the hash whose bytes 10 to 66 are a logarithm of A *)
Definition read_from (x : list Z) : Z := le_val (skipn 10 (firstn 67 x)) mod q448.
Definition shows (A : ept) (x : list Z) : bool :=
  let P := emul (read_from x) ebase in (fval (fst P) =? fval (fst A)) && (fval (snd P) =? fval (snd A)).
Definition sim_asked (A : ept) (coins : list (list Z * Z)) : list (list Z) :=
  final_input A (sim_end A coins) :: map fst (known (sim_end A coins)).
Definition sim_reads (A : ept) (coins : list (list Z * Z)) : bool := existsb (shows A) (sim_asked A coins).
Definition sim_guess (A : ept) (coins : list (list Z * Z)) : Z :=
  match find (shows A) (sim_asked A coins) with Some x => read_from x | None => 0 end.
End Game.

(* C85: the forger is given the public key *)
Definition real_game (n : nat) (next : list Z -> list (list Z) -> query) (finish : list Z -> list (list Z) -> list Z * list Z)
  (exact : list Z -> list Z -> list Z -> list Z -> bool) (key d : list Z) (coins : list (list Z * list Z)) : bool :=
  match ed448_derive_public (table_xof [(key, d)]) key with
  | Some pub => real_wins n (next pub) (finish pub) exact key d coins
  | None => false
  end.
Definition sim_game (n : nat) (next : list Z -> list (list Z) -> query) (finish : list Z -> list (list Z) -> list Z * list Z)
  (exact : list Z -> list Z -> list Z -> list Z -> bool) (A : ept) (coins : list (list Z * Z)) : bool :=
  sim_wins n (next (eencode A)) (finish (eencode A)) exact A coins.
Definition sim_game_reveals (n : nat) (next : list Z -> list (list Z) -> query) (finish : list Z -> list (list Z) -> list Z * list Z)
  (A : ept) (coins coins' : list (list Z * Z)) : bool :=
  sim_reveals n (next (eencode A)) (finish (eencode A)) A coins coins'.
Definition sim_game_extracted (n : nat) (next : list Z -> list (list Z) -> query) (finish : list Z -> list (list Z) -> list Z * list Z)
  (A : ept) (coins coins' : list (list Z * Z)) : Z :=
  sim_extracted n (next (eencode A)) (finish (eencode A)) A coins coins'.
