(* Model of /repo/src/errors.rs lines 3-28: LibgoldilockErrors. *)
From Coq Require Import ZArith.
Inductive error : Set :=
| DecodeError
| DecodePubkeyError
| DecodeSignatureError
| InvalidLengthError
| InvalidPrivKeyLengthErrro (len : Z)
| InvalidPubkeyLengthError
| InvalidSignatureLengthError
| InvalidSignatureError.
