(* Model of /repo/src/goldilocks.rs.  A PrivateKey / PublicKey ([u8; 57]) is a list of bytes. *)
From Coq Require Import ZArith List Bool.
From Verif Require Import Base Constants32 BigNumber ScalarModel ExtendedPoint Errors Eddsa.
Import ListNotations.
Open Scope Z_scope.

(* hex crate 0.4: value of one hex digit (ASCII code), lower and upper case *)
Definition hex_val (c : Z) : option Z :=
  if (0x30 <=? c) && (c <=? 0x39) then Some (c - 0x30)
  else if (0x61 <=? c) && (c <=? 0x66) then Some (c - 0x61 + 10)
  else if (0x41 <=? c) && (c <=? 0x46) then Some (c - 0x41 + 10)
  else None.
Fixpoint hex_bytes (s : list Z) : option (list Z) :=
  match s with
  | [] => Some []
  | c1 :: c2 :: t =>
      h <- hex_val c1 ;;
      l <- hex_val c2 ;;
      r <- hex_bytes t ;;
      Some (h * 16 + l :: r)
  | _ => None
  end.
(* hex::decode_to_slice(s, &mut out).expect(..) with out.len() = n: fails on odd length, on
   length / 2 <> n and on a character that is not a hex digit.  s is the list of UTF-8 bytes. *)
Definition hex_decode_to_slice (s : list Z) (n : Z) : option (list Z) :=
  if Z.of_nat (length s) =? 2 * n then hex_bytes s else None.

(* goldilocks.rs lines 13-29 *)
Definition hex_to_message_hash (s : list Z) : option (list Z) := hex_decode_to_slice s 32.
Definition hex_to_private_key (s : list Z) : option (list Z) := hex_decode_to_slice s 57.
Definition hex_to_signature (s : list Z) : option (list Z) := hex_decode_to_slice s 114.

(* goldilocks.rs lines 31-39 *)
Definition point_by_secret (p : list Z) : option point :=
  digest <- clamp p ;;
  r <- decode_long digest ;;
  let r := halve r in
  let r := halve r in
  precomputed_scalar_mul r.

(* goldilocks.rs lines 48-53 *)
Definition secret_to_public (sk : list Z) : option (list Z) :=
  h <- point_by_secret sk ;;
  eddsa_like_encode h.

Section Hash.
Variable xof : list Z -> nat -> list Z.

(* goldilocks.rs lines 41-46 *)
Definition private_to_secret (pk : list Z) : option (list Z) :=
  let sk := sha3 xof pk 57 in
  b <- znth sk 56 ;;
  zupd sk 56 (Z.lor b 0x80).

(* goldilocks.rs lines 55-57 *)
Definition private_to_public (pk : list Z) : option (list Z) :=
  s <- private_to_secret pk ;; secret_to_public s.

(* goldilocks.rs lines 70-94, and (with the same text) lines 108-132: everything after the secret
   scalar [sec], the nonce prefix [seed] and the public point [point] are known *)
Definition sign_tail (sec : scalar) (seed : list Z) (point : point) (message : list Z)
  : option (list Z) :=
  let nonce := hash_with_dom xof (seed ++ message) 114 in
  nonce_scalar <- decode_long nonce ;;
  let nonce_scalar2 := halve nonce_scalar in
  let nonce_scalar2 := halve nonce_scalar2 in
  np <- precomputed_scalar_mul nonce_scalar2 ;;
  nonce_point <- eddsa_like_encode np ;;
  penc <- eddsa_like_encode point ;;
  let challenge := hash_with_dom xof (nonce_point ++ penc ++ message) 114 in
  challenge_scalar <- decode_long challenge ;;
  challenge_scalar <- smul challenge_scalar sec ;;
  challenge_scalar <- sadd challenge_scalar nonce_scalar ;;
  Some (nonce_point ++ encode challenge_scalar).

(* goldilocks.rs lines 59-95 *)
Definition sign_by_private (pk message : list Z) : option (list Z) :=
  let secret := sha3 xof pk 114 in
  secret <- clamp secret ;;
  sk <- slice secret 0 57 ;;
  sec <- decode_long sk ;;
  seed <- slice secret 57 114 ;;
  point <- point_by_secret sk ;;
  sign_tail sec seed point message.

(* goldilocks.rs lines 97-133 *)
Definition sign_with_secret_and_nonce (secret n message : list Z) : option (list Z) :=
  s1 <- clamp secret ;;
  sec <- decode_long s1 ;;
  pub_point <- point_by_secret secret ;;
  sign_tail sec n pub_point message.

(* goldilocks.rs lines 135-141 *)
Definition ed448_derive_public (pk : list Z) : option (list Z) :=
  b <- znth pk (57 - 1) ;;
  if Z.land b 0x80 =? 0 then private_to_public pk else secret_to_public pk.

(* goldilocks.rs lines 143-152 *)
Definition ed448_sign (pk message : list Z) : option (list Z) :=
  b <- znth pk (57 - 1) ;;
  if Z.land b 0x80 =? 0 then sign_by_private pk message
  else
    digest <- clamp pk ;;
    sign_with_secret_and_nonce digest digest message.

(* slice == array comparison *)
Fixpoint bytes_eqb (a b : list Z) : bool :=
  match a, b with
  | [], [] => true
  | x :: a', y :: b' => (x =? y) && bytes_eqb a' b'
  | _, _ => false
  end.
Definition zero_public_key : list Z := repeat 0 57.
Definition zero_signature : list Z := repeat 0 114.

(* goldilocks.rs lines 154-161 *)
Definition ed448_verify (pubkey sig message : list Z) : option (result bool error) :=
  if bytes_eqb pubkey zero_public_key || bytes_eqb sig zero_signature
  then Some (Err InvalidSignatureError)
  else dsa_verify xof pubkey sig message.

(* goldilocks.rs lines 163-179 *)
Definition ed448_verify_with_error (pubkey sig message : list Z) : option (result unit error) :=
  if bytes_eqb pubkey zero_public_key || bytes_eqb sig zero_signature
  then Some (Err InvalidSignatureError)
  else
    r <- dsa_verify xof pubkey sig message ;;
    match r with
    | Err e => Some (Err e)
    | Ok is_ok => if negb is_ok then Some (Err InvalidSignatureError) else Some (Ok tt)
    end.

End Hash.

(* goldilocks.rs lines 181-185: rng is the 57 bytes written by fill_bytes *)
Definition ed448_generate_key (rng : list Z) : list Z := rng.
