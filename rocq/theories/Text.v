(* Model of the texts that derive(Debug), derive(Error) and format strings produce:
   /repo/src/errors.rs lines 3-28 and the derives of /repo/src/lib.rs lines 23, 28, 33.
   A text is the list of its UTF-8 bytes; only the ordinary forms {} and {:?} are modelled,
   not {:#?} nor width and precision. *)
From Coq Require Import ZArith List String Ascii.
From Verif Require Import Base Errors Lib.
Import ListNotations.
Open Scope Z_scope.

(* a string literal *)
Fixpoint lit (s : string) : list Z :=
  match s with
  | EmptyString => []
  | String a s' => Z.of_nat (nat_of_ascii a) :: lit s'
  end.

(* Display and Debug of unsigned integers; a usize has at most 20 digits *)
Fixpoint dec_loop (fuel : nat) (n : Z) (acc : list Z) : list Z :=
  match fuel with
  | O => acc
  | S fuel' => if n <? 10 then 48 + n :: acc else dec_loop fuel' (n / 10) (48 + n mod 10 :: acc)
  end.
Definition show_usize (n : Z) : list Z := dec_loop 20 n [].

(* errors.rs lines 5-28: the #[error("..")] attributes *)
Definition error_display (e : error) : list Z :=
  match e with
  | DecodeError => lit "DecodeErrro"
  | DecodePubkeyError => lit "DecodePubkeyError"
  | DecodeSignatureError => lit "DecodeSignatureError"
  | InvalidLengthError => lit "InvalidLengthError"
  | InvalidPrivKeyLengthErrro n =>
      lit "Invalid PrivateKey Length, expected: 57 bytes, got: " ++ show_usize n ++ lit " bytes"
  | InvalidPubkeyLengthError => lit "InvalidPubkeyLengthError"
  | InvalidSignatureLengthError => lit "InvalidSignatureLengthError"
  | InvalidSignatureError => lit "InvalidSignatureError"
  end.

(* errors.rs line 3: derive(Debug) *)
Definition error_debug (e : error) : list Z :=
  match e with
  | DecodeError => lit "DecodeError"
  | DecodePubkeyError => lit "DecodePubkeyError"
  | DecodeSignatureError => lit "DecodeSignatureError"
  | InvalidLengthError => lit "InvalidLengthError"
  | InvalidPrivKeyLengthErrro n => lit "InvalidPrivKeyLengthErrro(" ++ show_usize n ++ lit ")"
  | InvalidPubkeyLengthError => lit "InvalidPubkeyLengthError"
  | InvalidSignatureLengthError => lit "InvalidSignatureLengthError"
  | InvalidSignatureError => lit "InvalidSignatureError"
  end.

(* Debug of [u8; 57] *)
Fixpoint debug_items (l : list Z) : list Z :=
  match l with
  | [] => []
  | [x] => show_usize x
  | x :: l' => show_usize x ++ lit ", " ++ debug_items l'
  end.
Definition debug_array (l : list Z) : list Z := lit "[" ++ debug_items l ++ lit "]".

(* lib.rs lines 23-26, 28-31, 33-37: derive(Debug) *)
Definition secret_debug (k : secret_key) : list Z := lit "SecretKey { key: " ++ debug_array (sk_key k) ++ lit " }".
Definition verifying_debug (k : verifying_key) : list Z := lit "VerifyingKey { key: " ++ debug_array (vk_key k) ++ lit " }".
Definition signing_debug (k : signing_key) : list Z :=
  lit "SigningKey { secret_key: " ++ secret_debug (sg_secret k) ++ lit ", verifying_key: " ++
  verifying_debug (sg_verifying k) ++ lit " }".
