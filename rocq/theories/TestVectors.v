(* Tests of the model (no proofs): the vectors of the unit tests in /repo/src, run through the model
   with a concrete SHAKE256.  Each Goal fails to compile if the model gives another result. *)
From Coq Require Import ZArith List Bool String Ascii.
From Verif Require Import SpecShake Base Errors Eddsa Goldilocks Lib.
Import ListNotations.
Open Scope Z_scope.

Fixpoint str (s : string) : list Z :=
  match s with
  | EmptyString => []
  | String c t => Z.of_nat (nat_of_ascii c) :: str t
  end.
Definition hex (s : string) : list Z := match hex_bytes (str s) with Some l => l | None => [] end.
Definition hexstr (l : option (list Z)) : string :=
  match l with
  | None => "panic"%string
  | Some l => fold_right (fun c t => String (ascii_of_N (Z.to_N c)) t) EmptyString (hex_encode l)
  end.
Definition fox : list Z := str "The quick brown fox jumps over the lazy dog".

Ltac test t e :=
  let x := eval vm_compute in t in let y := eval vm_compute in e in constr_eq x y; exact I.

(* goldilocks.rs test_private_to_secret *)
Goal True. test (hexstr (private_to_secret shake256 (hex "a8ea212cc24ae0fd029a97b64be540885af0e1b7dc9faf4a591742850c4377f857ae9a8f87df1de98e397a5867dd6f20211ef3f234ae71bc56"))) ("1413821ed67083c855c6db4405dd4fa5fdec39e1c761be1415623c1c202c5cb5176e578830372b7e07eb1ef9cf71b19518815c4da0fd2d3594"%string). Qed.

(* test_secret_to_public *)
Goal True. test (hexstr (secret_to_public (hex "1413821ed67083c855c6db4405dd4fa5fdec39e1c761be1415623c1c202c5cb5176e578830372b7e07eb1ef9cf71b19518815c4da0fd2d3594"))) ("b615e57dd4d15c3ed1323725c0ba8b1d7f6e740d08e0e29c6d3ff564c896c0c3dd28a9bb5065e06725c8f9e3f7c2c6bbad4900b7447ecf9880"%string). Qed.

(* test_ed448_sign *)
Goal True. test (hexstr (ed448_sign shake256 (hex "e959068474bc720bf3a94c7a524750f0d4fe68a4828137e58d48303af1fa929a6c50f87d0cab27fc557aa1a3190cfad0abbca2a2e5d7da272d") fox)) ("92a7e08f86b25f288eb0308f3fb780950ab77c333d5d1b91b6de40a199fc028fe66a001dc09341905a58f8c3d4a959ee5d416735f59d91640095dd83e70b6bc05fa6a26b32c00be454bfb87285417554183c2da64bbbad77b746bd86299fd4188578bc9aa321a8291c5d2281029ca24e2d00"%string). Qed.

(* batch_test_sign_verify for one key: the derived key accepts the signature *)
Definition tkey : list Z := hex "e959068474bc720bf3a94c7a524750f0d4fe68a4828137e58d48303af1fa929a6c50f87d0cab27fc557aa1a3190cfad0abbca2a2e5d7da272d".
Definition tsig : list Z := hex "92a7e08f86b25f288eb0308f3fb780950ab77c333d5d1b91b6de40a199fc028fe66a001dc09341905a58f8c3d4a959ee5d416735f59d91640095dd83e70b6bc05fa6a26b32c00be454bfb87285417554183c2da64bbbad77b746bd86299fd4188578bc9aa321a8291c5d2281029ca24e2d00".
Goal True. test (pub <- ed448_derive_public shake256 tkey ;; ed448_verify shake256 pub tsig fox) (Some (@Ok bool error true)). Qed.
