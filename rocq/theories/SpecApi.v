(* Specification: key pairs of the public interface, decimal text, the messages of the errors. *)
From Coq Require Import ZArith List String Ascii.
From Verif Require Import SpecBytes Base Errors Eddsa Goldilocks Lib.
Import ListNotations.
Open Scope Z_scope.

(* sk is the signing key that belongs to the secret key k *)
Definition keypair (xof : list Z -> nat -> list Z) (k : list Z) (sk : signing_key) : Prop :=
  List.length k = 57%nat /\ bytes k /\ to_bytes sk = k /\ sk_key (get_secret_key sk) = k /\
  Some (as_bytes (get_verifying_key sk)) = ed448_derive_public xof k.

(* the ASCII codes of a string *)
Definition codes (s : string) : list Z := map (fun a => Z.of_nat (nat_of_ascii a)) (list_ascii_of_string s).
(* t is the decimal text of n: no superfluous zero in front *)
Definition decimal (n : Z) (t : list Z) : Prop :=
  n = fold_left (fun v c => 10 * v + (c - 48)) t 0 /\ Forall (fun c => 48 <= c <= 57) t /\
  t <> [] /\ (hd 0 t = 48 -> t = [48]).
(* t is l with the texts of the elements (relation r) separated by comma and space *)
Fixpoint listed (r : Z -> list Z -> Prop) (l : list Z) (t : list Z) : Prop :=
  match l with
  | [] => t = []
  | [x] => r x t
  | x :: l' => exists a b, r x a /\ listed r l' b /\ t = a ++ codes ", " ++ b
  end.
(* the number in an error is a usize *)
Definition fits (e : error) : Prop := match e with InvalidPrivKeyLengthErrro n => 0 <= n < 2 ^ 64 | _ => True end.
(* some call of a public function returns the error e *)
Definition api_error (xof : list Z -> nat -> list Z) (e : error) : Prop :=
  (exists pub sig message, bytes pub /\ bytes sig /\ bytes message /\ ed448_verify xof pub sig message = Some (Err e)) \/
  (exists pub sig message, bytes pub /\ bytes sig /\ bytes message /\ ed448_verify_with_error xof pub sig message = Some (Err e)) \/
  (exists k, bytes k /\ signing_from_bytes xof k = Some (Err e)) \/
  (exists k sk message, keypair xof k sk /\ bytes message /\ sign_prehash xof sk message = Some (Err e)).
