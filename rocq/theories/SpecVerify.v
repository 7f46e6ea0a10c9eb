(* Specification: how the verifier reaches its decision. *)
From Coq Require Import ZArith List.
From Verif Require Import SpecEd448 Base Constants32 Errors ScalarModel ExtendedPoint Eddsa.
Import ListNotations.
Open Scope Z_scope.

(* inputs refused before anything else: a public key or a signature of zero bytes only *)
Definition zero_input (pub sig : list Z) : Prop := pub = repeat 0 57 \/ sig = repeat 0 114.
(* r4 and pk are the points which the verifier hands to its final comparison: 4 R, and S B - k 4 A, as
   the crate computes them (this says nothing about the values of these points) *)
Definition compared (xof : list Z -> nat -> list Z) (pub sig message : list Z) (r4 pk : point) : Prop :=
  exists p p2 r penc c c' s,
    eddsa_like_decode pub = Some (Ok p) /\ point_scalar_mul p scalar_four = Some p2 /\
    eddsa_like_decode (firstn 57 sig) = Some (Ok r) /\ point_scalar_mul r scalar_four = Some r4 /\
    eddsa_like_encode p = Some penc /\
    decode_long (xof (rfc_dom ++ firstn 57 sig ++ penc ++ message) 114%nat) = Some c /\ ssub SCALAR_ZERO c = Some c' /\
    decode_long (firstn 57 (skipn 57 sig)) = Some s /\
    point_double_scalamul_non_secret p2 s c' = Some pk.
