(* Specification: decoding of points (RFC 8032 section 5.2.3), and the tests the crate makes. *)
From Coq Require Import ZArith List Bool.
From Verif Require Import SpecField SpecScalar SpecBytes SpecCurve.
Import ListNotations.
Open Scope Z_scope.

(* RFC 8032: the string is the encoding of the point P of the curve (y < p, and sign 0 for x = 0) *)
Definition rfc_decodes (src : list Z) (P : ept) : Prop := on_curve P /\ src = eencode P.

(* the y coordinate (not necessarily below p) and the sign bit of a 57-byte string *)
Definition enc_y (src : list Z) : Z := le_val (firstn 56 src).
Definition enc_sign (src : list Z) : bool := 128 <=? nth 56 src 0.
Definition enc_pad_ok (src : list Z) : bool := nth 56 src 0 mod 128 =? 0.
(* the string denotes the point (x, y): y modulo p, and the parity of x unless x = 0 *)
Definition denotes (src : list Z) (P : ept) : Prop :=
  on_curve P /\ snd P = mkF (enc_y src) /\ (fst P <> fzero -> Z.odd (fval (fst P)) = enc_sign src).

(* x with x^2 (1 - d y^2) = +-(1 - y^2) and the wanted parity: what the decoder computes from y *)
Definition candidate (y : Fp) (s : bool) (x : Fp) : Prop :=
  (fmul (fmul x x) (fsub fone (fmul ecd (fmul y y))) = fsub fone (fmul y y) \/
   fmul (fmul x x) (fsub fone (fmul ecd (fmul y y))) = fopp (fsub fone (fmul y y))) /\
  (x <> fzero -> Z.odd (fval x) = s).
(* 4 D^2 (D - 1 - d x^2 y^2) with D = x^2 + y^2: zero for points of the curve *)
Definition residue (x y : Fp) : Fp :=
  let D := fadd (fmul x x) (fmul y y) in
  fmul (fmul (mkF 4) (fmul D D)) (fsub (fsub D fone) (fmul ecd (fmul (fmul x x) (fmul y y)))).
(* the projective denominator (y^2 - x^2) (2 - x^2 - y^2) of the decoded point *)
Definition denominator (x y : Fp) : Fp :=
  fmul (fsub (fmul y y) (fmul x x)) (fsub (mkF 2) (fadd (fmul x x) (fmul y y))).
(* the comparison looks at the low 420 of 448 bits *)
Definition low_zero (x : Fp) : bool := fval x mod 2 ^ 420 =? 0.

(* the range test of the decoder on y: a chain over the sixteen 28-bit words of y.  It is not the
   comparison y < p: it keeps four times the top 24 bits of each difference as the next carry, and
   subtracts words of alternately 24 and 32 one bits. *)
Fixpoint words28 (n : nat) (z : Z) : list Z :=
  match n with O => [] | S n' => z mod 2 ^ 28 :: words28 n' (z / 2 ^ 28) end.
Fixpoint range_chain (c : Z) (ns ms : list Z) : Z :=
  match ns, ms with
  | n :: ns', m :: ms' => range_chain ((c + n - m) mod 2 ^ 32 / 2 ^ 8 * 4) ns' ms'
  | _, _ => c
  end.
Definition range_words : list Z :=
  [2^24-1; 2^32-1; 2^24-1; 2^32-1; 2^24-1; 2^32-1; 2^24-1; 2^32-1;
   2^24-2; 2^32-1; 2^24-1; 2^32-1; 2^24-1; 2^32-1; 2^24-1; 2^32-1].
Definition range_test (y : Z) : bool := negb (range_chain 0 (words28 16 y) range_words =? 0).

(* what the decoder accepts: all its tests together *)
Definition decodable (src : list Z) : Prop :=
  length src = 57%nat /\ enc_pad_ok src = true /\ range_test (enc_y src) = true /\
  exists x, candidate (mkF (enc_y src)) (enc_sign src) x /\
    low_zero (residue x (mkF (enc_y src))) = true /\ low_zero (denominator x (mkF (enc_y src))) = false.
(* for the encoding of a point of the curve only two of the tests matter *)
Definition decoder_tests (P : ept) : Prop :=
  range_test (fval (snd P)) = true /\ low_zero (denominator (fst P) (snd P)) = false.
