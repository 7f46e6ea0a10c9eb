(* Model of /repo/src/lib.rs.  A str / String is the list of its UTF-8 bytes. *)
From Coq Require Import ZArith List Bool.
From Verif Require Import Base Errors Goldilocks.
Import ListNotations.
Open Scope Z_scope.

(* lib.rs lines 23-41 *)
Record secret_key : Set := SecretKey { sk_key : list Z }.
Record verifying_key : Set := VerifyingKey { vk_key : list Z }.
Record signing_key : Set := SigningKey { sg_secret : secret_key; sg_verifying : verifying_key }.
Record signature : Set := Signature { sig_bytes : list Z }.

(* bytes.try_into::<[u8; 57]>().expect(..) and private_key.copy_from_slice(s): panic unless 57 bytes *)
Definition to_array57 (bytes : list Z) : option (list Z) :=
  if Z.of_nat (length bytes) =? 57 then Some bytes else None.

(* lib.rs lines 44-54 *)
Definition secret_from_str (str : list Z) : option secret_key :=
  k <- hex_to_private_key str ;; Some (SecretKey k).
Definition secret_from_bytes (bytes : list Z) : option secret_key :=
  k <- to_array57 bytes ;; Some (SecretKey k).

(* lib.rs lines 64-78 *)
Definition verifying_from_str (str : list Z) : option verifying_key :=
  k <- hex_to_private_key str ;; Some (VerifyingKey k).
Definition verifying_from_bytes (bytes : list Z) : option verifying_key :=
  k <- to_array57 bytes ;; Some (VerifyingKey k).
Definition as_bytes (v : verifying_key) : list Z := vk_key v.

Section Hash.
Variable xof : list Z -> nat -> list Z.

(* lib.rs lines 82-92 *)
Definition signing_from_str (str : list Z) : option signing_key :=
  private_key <- hex_to_private_key str ;;
  public_key <- ed448_derive_public xof private_key ;;
  Some (SigningKey (SecretKey private_key) (VerifyingKey public_key)).

(* lib.rs lines 97-108 *)
Definition signing_from_slice (s : list Z) : option signing_key :=
  private_key <- to_array57 s ;;
  public_key <- ed448_derive_public xof private_key ;;
  Some (SigningKey (SecretKey private_key) (VerifyingKey public_key)).

(* lib.rs lines 110-126 *)
Definition signing_from_bytes (s : list Z) : option (result signing_key error) :=
  if negb (Z.of_nat (length s) =? 57)
  then Some (Err (InvalidPrivKeyLengthErrro (Z.of_nat (length s))))
  else
    private_key <- to_array57 s ;;
    public_key <- ed448_derive_public xof private_key ;;
    Some (Ok (SigningKey (SecretKey private_key) (VerifyingKey public_key))).

(* lib.rs lines 57-61 *)
Definition signing_from_secret (s : secret_key) : option signing_key :=
  signing_from_slice (sk_key s).

(* lib.rs lines 128-136: [rng] is the 57 bytes that fill_bytes writes *)
Definition signing_random (rng : list Z) : option signing_key := signing_from_slice rng.

(* lib.rs lines 138-148 *)
Definition get_verifying_key (s : signing_key) : verifying_key := sg_verifying s.
Definition get_secret_key (s : signing_key) : secret_key := sg_secret s.
Definition to_bytes (s : signing_key) : list Z := sk_key (sg_secret s).

(* lib.rs lines 151-162 *)
Definition sign_prehash (s : signing_key) (prehash : list Z) : option (result signature error) :=
  sig <- ed448_sign xof (sk_key (sg_secret s)) prehash ;;
  if (Z.of_nat (length sig) =? 114) && (Z.of_nat (length (vk_key (sg_verifying s))) =? 57)
  then Some (Ok (Signature (sig ++ vk_key (sg_verifying s))))
  else None.

(* lib.rs lines 164-168 *)
Definition as_slice (s : signature) : list Z := sig_bytes s.

(* hex::encode: two lower-case digits per byte *)
Definition hex_digit (v : Z) : Z := if v <? 10 then 0x30 + v else 0x61 + (v - 10).
Definition hex_encode (b : list Z) : list Z :=
  flat_map (fun x => [hex_digit (Z.shiftr x 4); hex_digit (Z.land x 15)]) b.

(* serde: a data format is its is_human_readable() flag; the serialized form is the string handed
   to / obtained from the format.  [None] of the outer option is a panic, Err tt is D::Error. *)
Record format : Set := Format { human_readable : bool }.

(* lib.rs lines 170-178, 194-202, 218-226 *)
Definition signing_serialize (f : format) (k : signing_key) : list Z :=
  hex_encode (sk_key (sg_secret k)).
Definition secret_serialize (f : format) (k : secret_key) : list Z := hex_encode (sk_key k).
Definition verifying_serialize (f : format) (k : verifying_key) : list Z := hex_encode (vk_key k).

(* lib.rs lines 180-192, 204-216, 228-240; [input] is what String::deserialize returns *)
Definition signing_deserialize (f : format) (input : result (list Z) unit)
  : option (result signing_key unit) :=
  if human_readable f then
    match input with
    | Err e => Some (Err e)
    | Ok s => k <- signing_from_str s ;; Some (Ok k)
    end
  else Some (Err tt).
Definition secret_deserialize (f : format) (input : result (list Z) unit)
  : option (result secret_key unit) :=
  if human_readable f then
    match input with
    | Err e => Some (Err e)
    | Ok s => k <- secret_from_str s ;; Some (Ok k)
    end
  else Some (Err tt).
Definition verifying_deserialize (f : format) (input : result (list Z) unit)
  : option (result verifying_key unit) :=
  if human_readable f then
    match input with
    | Err e => Some (Err e)
    | Ok s => k <- verifying_from_str s ;; Some (Ok k)
    end
  else Some (Err tt).
End Hash.
