(* Specification: variants of Ed448 and transcripts of the signature scheme. *)
From Coq Require Import ZArith List Bool.
From Verif Require Import SpecScalar SpecBytes SpecCurve SpecDecode SpecEd448 SpecUniform.
Import ListNotations.
Open Scope Z_scope.

(* Ed448ph of RFC 8032 section 5.2 (pre-hashed, empty context): "SigEd448" || octet(1) || octet(0); h is the
   64-byte hash PH(M) of the message *)
Definition rfc_dom_ph : list Z := [83; 105; 103; 69; 100; 52; 52; 56; 1; 0].
Definition rfc_ph_sign_with (H : list Z -> nat -> list Z) (s : Z) (prefix A h : list Z) : list Z :=
  let r := le_val (H (rfc_dom_ph ++ prefix ++ h) 114%nat) in
  let R := eencode (emul r ebase) in
  let k := le_val (H (rfc_dom_ph ++ R ++ A ++ h) 114%nat) in
  R ++ le_bytes 57 ((r + k * s) mod q448).
(* with a seed key *)
Definition rfc_ph_sign (H : list Z -> nat -> list Z) (key h : list Z) : list Z :=
  let d := H key 114%nat in
  rfc_ph_sign_with H (secret_scalar d) (skipn 57 d) (rfc_public H key) h.

(* the verification equation without the factor 4 (RFC 8032 permits to test this one instead) *)
Definition plain_equation (S : Z) (R : ept) (k : Z) (A : ept) : Prop := emul S ebase = eadd R (emul k A).

(* the hash H with its value at one input replaced by v (followed by zeros) *)
Definition programmed (H : list Z -> nat -> list Z) (input v : list Z) (x : list Z) (n : nat) : list Z :=
  if same_string x input then firstn n (v ++ repeat 0 n) else H x n.
