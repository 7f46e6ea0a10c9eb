(* Specification: SHAKE256 of FIPS 202.  The crate takes it from the sha3 crate (goldilocks.rs:1-5 and
   eddsa.rs use it only through update and finalize_xof().read); theorems hold for every extendable
   output function, and Shake.v shows that this one is an instance. *)
From Coq Require Import ZArith List Bool.
From Verif Require Import SpecBytes.
Import ListNotations.
Open Scope Z_scope.

(* SHAKE256 (FIPS 202): state = 25 lanes, lane (x, y) at position x + 5 y *)
Definition M64 : Z := 0xffffffffffffffff.
Definition rol (x : Z) (n : Z) : Z :=
  Z.lor (Z.land (Z.shiftl x n) M64) (Z.shiftr x (64 - n)).
Definition ln (a : list Z) (i : nat) : Z := nth i a 0.
Definition idx5 : list nat := [0; 1; 2; 3; 4]%nat.
Definition rho_offs : list Z :=
  [0; 1; 62; 28; 27; 36; 44; 6; 55; 20; 3; 10; 43; 25; 39; 41; 45; 15; 21; 8; 18; 2; 61; 56; 14].
Definition theta (a : list Z) : list Z :=
  let c := map (fun x => fold_left Z.lxor (map (fun y => ln a (x + 5 * y)) idx5) 0) idx5 in
  let d := map (fun x => Z.lxor (ln c ((x + 4) mod 5)) (rol (ln c ((x + 1) mod 5)) 1)) idx5 in
  flat_map (fun y => map (fun x => Z.lxor (ln a (x + 5 * y)) (ln d x)) idx5) idx5.
Definition rho_pi (a : list Z) : list Z :=
  let r := map (fun p => rol (fst p) (snd p)) (combine a rho_offs) in
  flat_map (fun y => map (fun x => ln r (((x + 3 * y) mod 5) + 5 * x)) idx5) idx5.
Definition chi (a : list Z) : list Z :=
  flat_map (fun y => map (fun x =>
    Z.lxor (ln a (x + 5 * y))
      (Z.land (M64 - ln a (((x + 1) mod 5) + 5 * y)) (ln a (((x + 2) mod 5) + 5 * y)))) idx5) idx5.
Definition rcs : list Z :=
  [0x1; 0x8082; 0x800000000000808a; 0x8000000080008000; 0x808b; 0x80000001; 0x8000000080008081;
   0x8000000000008009; 0x8a; 0x88; 0x80008009; 0x8000000a; 0x8000808b; 0x800000000000008b;
   0x8000000000008089; 0x8000000000008003; 0x8000000000008002; 0x8000000000000080; 0x800a;
   0x800000008000000a; 0x8000000080008081; 0x8000000000008080; 0x80000001; 0x8000000080008008].
Definition round (a : list Z) (rc : Z) : list Z :=
  match chi (rho_pi (theta a)) with
  | h :: t => Z.lxor h rc :: t
  | [] => []
  end.
Definition keccak_f (a : list Z) : list Z := fold_left round rcs a.
Fixpoint lanes (n : nat) (b : list Z) : list Z :=
  match n with O => [] | S k => le_val (firstn 8 b) :: lanes k (skipn 8 b) end.
Definition rate : nat := 136.
Fixpoint absorb (fuel : nat) (st : list Z) (b : list Z) : list Z :=
  let x blk := map (fun p => Z.lxor (fst p) (snd p))
                   (combine st (lanes 17 blk ++ repeat 0 8)) in
  match fuel with
  | O => st
  | S f =>
      if Nat.ltb (List.length b) rate then
        let pad := b ++ [0x1f] ++ repeat 0 (rate - 1 - List.length b) in
        let blk := firstn 135 pad ++ [Z.lxor (nth 135 pad 0) 0x80] in
        keccak_f (x blk)
      else absorb f (keccak_f (x (firstn rate b))) (skipn rate b)
  end.
Fixpoint bytes8 (n : nat) (z : Z) : list Z :=
  match n with O => [] | S k => Z.land z 255 :: bytes8 k (Z.shiftr z 8) end.
Fixpoint squeeze (fuel : nat) (st : list Z) : list Z :=
  match fuel with
  | O => []
  | S f => flat_map (bytes8 8) (firstn 17 st) ++ squeeze f (keccak_f st)
  end.
Definition shake256 (input : list Z) (n : nat) : list Z :=
  firstn n (squeeze (S (Nat.div n rate)) (absorb (S (List.length input)) (repeat 0 25) input)).

