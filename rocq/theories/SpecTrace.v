(* Specification: which entries of the precomputed table a fixed-base multiplication reads.
   For [s]B the crate walks through the 450 binary digits of the number N in [0, q) with
   2 N = s/4 + 2^450 - 1 modulo q; 18 rounds of 5 digits to base 32, spread over the number. *)
From Coq Require Import ZArith List.
From Verif Require Import SpecScalar SpecBytes SpecCurve SpecDecode SpecEd448.
Import ListNotations.
Open Scope Z_scope.

Definition comb_number (s : Z) : Z := ((s * ((q448 + 1) / 4) + 2 ^ 450 - 1) * ((q448 + 1) / 2)) mod q448.
(* round i, comb j: bits i + 18 (5 j), i + 18 (5 j + 1), ..., i + 18 (5 j + 4) *)
Definition comb_digit (N i j : Z) : Z :=
  let bit k := (N / 2 ^ (i + 18 * (5 * j + k))) mod 2 in
  bit 0 + 2 * bit 1 + 4 * bit 2 + 8 * bit 3 + 16 * bit 4.
(* a digit below 16 is read as the negative of its complement *)
Definition comb_address (N i j : Z) : Z :=
  let d := comb_digit N i j in 16 * j + (if d <? 16 then 15 - d else d - 16).
Definition comb_round (N : Z) (i : nat) : list Z := map (fun j => comb_address N (Z.of_nat i) j) [0; 1; 2; 3; 4].
Fixpoint comb_rounds (N : Z) (n : nat) : list Z :=
  match n with O => [] | S i => comb_round N i ++ comb_rounds N i end.
Definition table_addresses (s : Z) : list Z := comb_rounds (comb_number s) 18.

(* RFC 8032 section 5.2.6 steps 1 and 2 for the two kinds of keys: prefix, and r *)
Definition key_prefix (H : list Z -> nat -> list Z) (key : list Z) : list Z :=
  if enc_sign key then le_bytes 57 (secret_scalar key) else skipn 57 (H key 114%nat).
Definition key_nonce (H : list Z -> nat -> list Z) (key message : list Z) : Z :=
  le_val (H (rfc_dom ++ key_prefix H key ++ message) 114%nat).
