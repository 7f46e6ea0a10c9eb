(* Model of /repo/src/eddsa.rs.  [xof] stands for SHAKE256: xof input n is the first n bytes
   of the output (crate sha3; Shake256::default, update, finalize_xof, read). *)
From Coq Require Import ZArith List Bool.
From Verif Require Import Base Constants32 BigNumber ScalarModel ExtendedPoint Errors.
Import ListNotations.
Open Scope Z_scope.

(* eddsa.rs lines 13-17: on a slice of at least 57 bytes; &=, = and |= of single bytes *)
Definition clamp (pk : list Z) : option (list Z) :=
  b0 <- znth pk 0 ;;
  pk <- zupd pk 0 (Z.land b0 0xfc) ;;
  pk <- zupd pk 56 0 ;;
  b55 <- znth pk 55 ;;
  zupd pk 55 (Z.lor b55 0x80).

Section Hash.
Variable xof : list Z -> nat -> list Z.

(* eddsa.rs lines 19-24 *)
Definition sha3 (input : list Z) (outlen : nat) : list Z := xof input outlen.

(* eddsa.rs lines 26-35: "SigEd448" 0 0 || input (the caller's vector is emptied by append;
   no caller uses it afterwards) *)
Definition DOM : list Z := [0x53; 0x69; 0x67; 0x45; 0x64; 0x34; 0x34; 0x38; 0; 0].
Definition hash_with_dom (input : list Z) (outlen : nat) : list Z := xof (DOM ++ input) outlen.

(* &sig[a..b] *)
Definition slice (l : list Z) (a b : nat) : option (list Z) :=
  if (Nat.leb a b) && (Nat.leb b (length l)) then Some (firstn (b - a) (skipn a l)) else None.

Definition scalar_four : scalar := [4; 0; 0; 0; 0; 0; 0; 0; 0; 0; 0; 0; 0; 0].

(* eddsa.rs lines 39-102 *)
Definition dsa_verify (pubkey sig message : list Z) : option (result bool error) :=
  dp <- eddsa_like_decode pubkey ;;
  match dp with
  | Err InvalidLengthError => Some (Err InvalidPubkeyLengthError)
  | Err DecodeError => Some (Err DecodePubkeyError)
  | Err _ => None
  | Ok p =>
      p2 <- point_scalar_mul p scalar_four ;;
      sig1 <- slice sig 0 57 ;;
      sig2 <- slice sig 57 (57 + 57) ;;
      dr <- eddsa_like_decode sig1 ;;
      match dr with
      | Err InvalidLengthError => Some (Err InvalidSignatureLengthError)
      | Err DecodeError => Some (Err DecodeSignatureError)
      | Err _ => None
      | Ok r_point =>
          r_point <- point_scalar_mul r_point scalar_four ;;
          penc <- eddsa_like_encode p ;;
          let challenge := hash_with_dom (sig1 ++ penc ++ message) 114 in
          challenge_scalar <- decode_long challenge ;;
          challenge_scalar <- ssub SCALAR_ZERO challenge_scalar ;;
          responce_scalar <- decode_long sig2 ;;
          pk <- point_double_scalamul_non_secret p2 responce_scalar challenge_scalar ;;
          b <- mod_equal r_point pk ;;
          Some (Ok b)
      end
  end.
End Hash.
