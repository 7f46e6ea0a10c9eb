(* Model of what signing and key derivation show to an observer of control flow and memory addresses:
   the functions of goldilocks.rs, scalar.rs and extended_point.rs once more, returning besides their
   result the list of the branches taken, of the computed array indices, of the entries read
   from the precomputed table and of the calls of the hash function.
   Simplification: functions whose branches and indices are made of loop counters only (the
   arithmetic of bignumber.rs, add, sub, halve, montgomery_multiply, mul and encode of scalar.rs, clamp,
   and the point formulas, whose flag before_double is a function of the loop counters) emit no event:
   [quiet].  Traps of checked operations are not events. *)
From Coq Require Import ZArith List Bool.
From Verif Require Import Base Constants32 ScalarModel Niels CombTable ExtendedPoint Eddsa Goldilocks.
Import ListNotations.
Open Scope Z_scope.

Inductive event : Set :=
| Branch (line : Z) (taken : bool)      (* condition of an if or while at that line *)
| Load (line index : Z)                 (* array access *)
| Lookup (index : Z)                    (* DECAF_PRECOMP_TABLE.lookup(index): decaf_combs_32.rs lines 11-14 *)
| Hash (input output : nat).            (* Shake256 on that many bytes, producing that many *)

(* the table entries read, in order *)
Definition lookups (t : list event) : list Z := flat_map (fun e => match e with Lookup i => [i] | _ => [] end) t.

Definition traced (A : Type) : Type := option (list event * A).
Definition quiet {A : Type} (x : option A) : traced A := match x with Some a => Some ([], a) | None => None end.
Definition emit (e : event) : traced unit := Some ([e], tt).
Definition tbind {A B : Type} (x : traced A) (f : A -> traced B) : traced B :=
  match x with
  | Some (t, a) => match f a with Some (t', b) => Some (t ++ t', b) | None => None end
  | None => None
  end.
Declare Scope trace_scope.
Notation "x <~ e ;; k" := (tbind e (fun x => k))
  (at level 61, e at next level, right associativity) : trace_scope.
Open Scope trace_scope.
(* The events belong to what is done: a branch shows the condition on which the program continues, a load
   the index of the element (or of the rest of the slice) that is used, a lookup the table entry. *)
Definition branch {A : Type} (line : Z) (c : bool) (f : bool -> traced A) : traced A := _ <~ emit (Branch line c) ;; f c.
Definition load {A : Type} (line : Z) (l : list Z) (i : Z) (f : Z -> traced A) : traced A :=
  _ <~ emit (Load line i) ;; v <~ quiet (znth l i) ;; f v.
Definition rest {A : Type} (line : Z) (l : list Z) (i : Z) (f : list Z -> traced A) : traced A :=
  _ <~ emit (Load line i) ;; f (skipn (Z.to_nat i) l).
Definition lookup {A : Type} (i : Z) (f : niels -> traced A) : traced A :=
  _ <~ emit (Lookup i) ;; np <~ quiet (znth comb_base i) ;; f np.

(* scalar.rs lines 142-148 *)
Fixpoint t_short_word (rounds : nat) (j : Z) (b : list Z) (size k out : Z) : traced (Z * Z) :=
  match rounds with
  | O => quiet (Some (out, k))
  | S n =>
      branch 143 (k >=? size) (fun stop =>
      if stop then quiet (Some (out, k))
      else load 146 b k (fun bk => t_short_word n (j + 1) b size (k + 1) (Z.lor out (shl32 bk (8 * j)))))
  end.
(* scalar.rs lines 140-150 *)
Fixpoint t_short_words (words : nat) (b : list Z) (size k : Z) : traced (list Z) :=
  match words with
  | O => quiet (Some [])
  | S n =>
      w <~ t_short_word 4 0 b size k 0 ;;
      r <~ t_short_words n b size (snd w) ;;
      quiet (Some (fst w :: r))
  end.
(* scalar.rs lines 137-152 *)
Definition t_decode_short (b : list Z) (size : Z) : traced scalar := t_short_words 14 b size 0.
(* scalar.rs lines 155-170 *)
Definition t_decode (b : list Z) : traced scalar :=
  s <~ t_decode_short b SCALAR_BYTES ;;
  _ <~ quiet (decode_accum 0 s SCALAR_Q) ;;
  quiet (smul s SCALAR_ONE).
(* scalar.rs lines 209-214 *)
Fixpoint t_long_loop (fuel : nat) (b : list Z) (size : Z) (res : scalar) : traced scalar :=
  branch 209 (size >? 0) (fun more =>
  if more then
    match fuel with
    | O => None
    | S f =>
        size <~ quiet (chk_usize (size - SCALAR_SER_BYTES)) ;;
        res <~ quiet (montgomery_multiply res SCALAR_R2) ;;
        rest 212 b size (fun r =>
        y <~ t_decode r ;;
        res <~ quiet (sadd res y) ;;
        t_long_loop f b size res)
    end
  else quiet (Some res)).
(* scalar.rs lines 188-217 *)
Definition t_decode_long (b : list Z) : traced scalar :=
  let b_len := Z.of_nat (length b) in
  let size := b_len - b_len mod SCALAR_SER_BYTES in
  branch 192 (b_len =? 0) (fun empty =>
  if empty then quiet (Some create_zero_scalar)
  else
    branch 195 (size =? b_len) (fun whole =>
    let size := if whole then size - SCALAR_SER_BYTES else size in
    rest 198 b size (fun r =>
    res <~ t_decode_short r (b_len - size) ;;
    branch 199 (b_len =? SCALAR_SER_BYTES) (fun short =>
    if short then quiet (smul res SCALAR_ONE)
    else t_long_loop (length b) b size res)))).

(* extended_point.rs lines 582-588 *)
Fixpoint t_comb_tab (teeth : nat) (k : Z) (s : scalar) (i j tab : Z) : traced Z :=
  match teeth with
  | O => quiet (Some tab)
  | S n =>
      let bit := i + DECAF_COMB_SPACING * (k + j * DECAF_COMB_TEETH) in
      branch 585 (bit <? SCALAR_BITS) (fun inside =>
      tab <~ (if inside
              then load 586 s (bit / WORD_BITS) (fun w =>
                   quiet (Some (Z.lor tab (shl32 (Z.land (Z.shiftr w (bit mod WORD_BITS)) 1) k))))
              else quiet (Some tab)) ;;
      t_comb_tab n (k + 1) s i j tab)
  end.
(* extended_point.rs lines 581-602 *)
Fixpoint t_comb_inner (rounds : nat) (j : Z) (s : scalar) (i : Z) (p : point) : traced point :=
  match rounds with
  | O => quiet (Some p)
  | S n =>
      tab <~ t_comb_tab 5 0 s i j 0 ;;
      let invert := Z.shiftr (as_i32 tab) (DECAF_COMB_TEETH - 1) - 1 in
      let tab := Z.lxor tab (wrap32 invert) in
      let tab := Z.land tab (2 ^ (DECAF_COMB_TEETH - 1) - 1) in
      let index := Z.shiftl j (DECAF_COMB_TEETH - 1) + tab in
      lookup index (fun np =>
      np <~ quiet (niels_conditional_negate np (wrap32 invert)) ;;
      let adding := negb (i =? DECAF_COMB_SPACING - 1) || negb (j =? 0) in
      branch 597 adding (fun adding =>
      p <~ (if adding
            then quiet (add_niels_to_extended p np ((j =? DECAF_COMB_NUMBER - 1) && negb (i =? 0)))
            else quiet (niels_to_extended np)) ;;
      t_comb_inner n (j + 1) s i p))
  end.
(* extended_point.rs lines 576-603 *)
Fixpoint t_comb_outer (rounds : nat) (s : scalar) (p : point) : traced point :=
  match rounds with
  | O => quiet (Some p)
  | S n =>
      let i := Z.of_nat n in
      let doubling := negb (i =? DECAF_COMB_SPACING - 1) in
      branch 577 doubling (fun doubling =>
      p <~ (if doubling then quiet (double_internal p false) else quiet (Some p)) ;;
      p <~ t_comb_inner 5 0 s i p ;;
      t_comb_outer n s p)
  end.
(* extended_point.rs lines 570-606 *)
Definition t_precomputed_scalar_mul (s : scalar) : traced point :=
  scalar2 <~ quiet (sadd s scalar_adjustment) ;;
  let scalar2 := halve scalar2 in
  t_comb_outer 18 scalar2 point_new.

(* goldilocks.rs lines 31-39 *)
Definition t_point_by_secret (p : list Z) : traced point :=
  digest <~ quiet (clamp p) ;;
  r <~ t_decode_long digest ;;
  let r := halve r in
  let r := halve r in
  t_precomputed_scalar_mul r.
(* goldilocks.rs lines 48-53 *)
Definition t_secret_to_public (sk : list Z) : traced (list Z) :=
  h <~ t_point_by_secret sk ;;
  quiet (eddsa_like_encode h).

Section Hash.
Variable xof : list Z -> nat -> list Z.

(* eddsa.rs lines 19-24 and 26-35 *)
Definition t_sha3 (input : list Z) (outlen : nat) : traced (list Z) :=
  _ <~ emit (Hash (length input) outlen) ;;
  quiet (Some (sha3 xof input outlen)).
Definition t_hash_with_dom (input : list Z) (outlen : nat) : traced (list Z) :=
  _ <~ emit (Hash (length DOM + length input) outlen) ;;
  quiet (Some (hash_with_dom xof input outlen)).

(* goldilocks.rs lines 41-46 and 55-57 *)
Definition t_private_to_secret (pk : list Z) : traced (list Z) :=
  sk <~ t_sha3 pk 57 ;;
  b <~ quiet (znth sk 56) ;;
  quiet (zupd sk 56 (Z.lor b 0x80)).
Definition t_private_to_public (pk : list Z) : traced (list Z) :=
  s <~ t_private_to_secret pk ;; t_secret_to_public s.

(* goldilocks.rs lines 70-94 and 108-132 *)
Definition t_sign_tail (sec : scalar) (seed : list Z) (point : point) (message : list Z) : traced (list Z) :=
  nonce <~ t_hash_with_dom (seed ++ message) 114 ;;
  nonce_scalar <~ t_decode_long nonce ;;
  let nonce_scalar2 := halve nonce_scalar in
  let nonce_scalar2 := halve nonce_scalar2 in
  np <~ t_precomputed_scalar_mul nonce_scalar2 ;;
  nonce_point <~ quiet (eddsa_like_encode np) ;;
  penc <~ quiet (eddsa_like_encode point) ;;
  challenge <~ t_hash_with_dom (nonce_point ++ penc ++ message) 114 ;;
  challenge_scalar <~ t_decode_long challenge ;;
  challenge_scalar <~ quiet (smul challenge_scalar sec) ;;
  challenge_scalar <~ quiet (sadd challenge_scalar nonce_scalar) ;;
  quiet (Some (nonce_point ++ encode challenge_scalar)).
(* goldilocks.rs lines 59-95 *)
Definition t_sign_by_private (pk message : list Z) : traced (list Z) :=
  secret <~ t_sha3 pk 114 ;;
  secret <~ quiet (clamp secret) ;;
  sk <~ quiet (slice secret 0 57) ;;
  sec <~ t_decode_long sk ;;
  seed <~ quiet (slice secret 57 114) ;;
  point <~ t_point_by_secret sk ;;
  t_sign_tail sec seed point message.
(* goldilocks.rs lines 97-133 *)
Definition t_sign_with_secret_and_nonce (secret n message : list Z) : traced (list Z) :=
  s1 <~ quiet (clamp secret) ;;
  sec <~ t_decode_long s1 ;;
  pub_point <~ t_point_by_secret secret ;;
  t_sign_tail sec n pub_point message.
(* goldilocks.rs lines 135-141 *)
Definition t_ed448_derive_public (pk : list Z) : traced (list Z) :=
  b <~ quiet (znth pk (57 - 1)) ;;
  branch 136 (Z.land b 0x80 =? 0) (fun seed => if seed then t_private_to_public pk else t_secret_to_public pk).
(* goldilocks.rs lines 143-152 *)
Definition t_ed448_sign (pk message : list Z) : traced (list Z) :=
  b <~ quiet (znth pk (57 - 1)) ;;
  branch 144 (Z.land b 0x80 =? 0) (fun seed =>
  if seed then t_sign_by_private pk message
  else
    digest <~ quiet (clamp pk) ;;
    t_sign_with_secret_and_nonce digest digest message).
End Hash.
