(* Specification: what the three operations hash, as byte strings, with 114 bytes of output each.  An
   expanded-secret key (high bit of the last byte set) is not hashed itself. *)
From Coq Require Import ZArith List Bool.
From Verif Require Import SpecBytes SpecScalar SpecCurve SpecDecode SpecEd448.
Import ListNotations.
Open Scope Z_scope.

Section Hash.
Variable H : list Z -> nat -> list Z.

Definition derive_inputs (key : list Z) : list (list Z) := if enc_sign key then [] else [key].
Definition sign_prefix (key : list Z) : list Z :=
  if enc_sign key then le_bytes 57 (secret_scalar key) else skipn 57 (H key 114).
Definition sign_inputs (key message : list Z) : list (list Z) :=
  let nonce := rfc_dom ++ sign_prefix key ++ message in
  let R := eencode (emul (le_val (H nonce 114)) ebase) in
  derive_inputs key ++ [nonce; rfc_dom ++ R ++ eencode (emul (key_scalar H key) ebase) ++ message].
(* the verifier knows the point A the public key stands for *)
Definition verify_inputs (A : ept) (sig message : list Z) : list (list Z) :=
  [rfc_dom ++ firstn 57 sig ++ eencode (subgroup_part A) ++ message].
End Hash.

(* two hash functions agree on the listed inputs *)
Definition agree (H H' : list Z -> nat -> list Z) (inputs : list (list Z)) : Prop :=
  forall x, In x inputs -> H x 114%nat = H' x 114%nat.
