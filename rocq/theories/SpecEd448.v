(* Specification: Ed448 of RFC 8032 section 5.2 (pure Ed448, empty context).  [H x n] stands for the
   first n bytes of SHAKE256(x). *)
From Coq Require Import ZArith List Bool.
From Verif Require Import SpecField SpecScalar SpecBytes SpecCurve SpecDecode.
Import ListNotations.
Open Scope Z_scope.

(* what is used of SHAKE256: output length, bytes, and that a shorter output is a prefix *)
Definition is_xof (H : list Z -> nat -> list Z) : Prop :=
  forall x, (forall n, length (H x n) = n /\ bytes (H x n)) /\ (forall n n', (n <= n')%nat -> H x n = firstn n (H x n')).

(* section 5.2.5 steps 2 and 3: of 57 bytes, clear the two low bits of the first, the last, and set
   the high bit of the last but one; the secret scalar as an integer *)
Definition secret_scalar (h : list Z) : Z := 2 ^ 447 + 4 * (le_val (firstn 56 h) mod 2 ^ 447 / 4).

(* "SigEd448" || octet(0) || octet(0) *)
Definition rfc_dom : list Z := [83; 105; 103; 69; 100; 52; 52; 56; 0; 0].

Section RFC.
Variable H : list Z -> nat -> list Z.

(* section 5.2.5 *)
Definition rfc_public (key : list Z) : list Z := eencode (emul (secret_scalar (H key 114)) ebase).

(* the crate's two kinds of keys: with the top bit of the last byte set the key itself is clamped, else
   its hash *)
Definition key_scalar (key : list Z) : Z := secret_scalar (if enc_sign key then key else H key 114).

(* section 5.2.6, from the secret scalar s, the prefix and the encoded public key A on *)
Definition rfc_sign_with (s : Z) (prefix A message : list Z) : list Z :=
  let r := le_val (H (rfc_dom ++ prefix ++ message) 114) in
  let R := eencode (emul r ebase) in
  let k := le_val (H (rfc_dom ++ R ++ A ++ message) 114) in
  R ++ le_bytes 57 ((r + k * s) mod q448).
Definition rfc_sign (key message : list Z) : list Z :=
  let h := H key 114 in
  rfc_sign_with (secret_scalar h) (skipn 57 h) (rfc_public key) message.

(* section 5.2.7 step 2, with the challenge k over the given encodings *)
Definition rfc_challenge (Renc Aenc message : list Z) : Z := le_val (H (rfc_dom ++ Renc ++ Aenc ++ message) 114).
(* step 3: [4][S]B = [4]R + [4][k]A *)
Definition rfc_equation (S : Z) (R : ept) (k : Z) (A : ept) : Prop :=
  emul (4 * S) ebase = eadd (emul 4 R) (emul (4 * k) A).
(* section 5.2.7 *)
Definition rfc_valid (pub sig message : list Z) : Prop :=
  exists A R, rfc_decodes pub A /\ rfc_decodes (firstn 57 sig) R /\ length sig = 114%nat /\
    le_val (skipn 57 sig) < q448 /\
    rfc_equation (le_val (skipn 57 sig)) R (rfc_challenge (firstn 57 sig) pub message) A.
End RFC.

(* The verifier hashes, in place of the public key bytes, the encoding of the component of A in the
   group generated by B: (q+1) A, as q + 1 is 1 modulo q and 0 modulo 4. *)
Definition subgroup_part (A : ept) : ept := emul (q448 + 1) A.
(* The crate computes on an isogenous curve.  Image of (x, y) under the isogeny of degree 4: *)
Definition iso4 (P : ept) : Fp * Fp :=
  let (x, y) := P in
  let D := fadd (fmul x x) (fmul y y) in
  (fdiv (fopp (fmul (fmul (mkF 2) x) y)) (fsub (fmul y y) (fmul x x)), fdiv D (fsub (mkF 2) D)).
