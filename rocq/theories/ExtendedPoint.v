(* Model of /repo/src/extended_point.rs. *)
From Coq Require Import ZArith List Bool.
From Verif Require Import Base Constants32 BigNumber ScalarModel Niels CombTable WnafTable Errors.
Import ListNotations.
Open Scope Z_scope.

(* extended_point.rs lines 30-36 *)
Record point : Set := MkPoint { px : bn; py : bn; pz : bn; pt : bn }.

(* extended_point.rs lines 15-19 *)
Record smvt : Set := Smvt { power : Z; addend : Z }.
(* lines 21-28 *)
Definition smvt_new : smvt := Smvt 0 0.

(* extended_point.rs lines 45-49 *)
Record pniels : Set := PNiels { pn : niels; pnz : bn }.
(* lines 51-63 *)
Definition niels_new : niels :=
  Niels create_zero_bignumber create_zero_bignumber create_zero_bignumber.
Definition pniels_new : pniels := PNiels niels_new create_zero_bignumber.

(* extended_point.rs lines 79-93 *)
Definition point_new : point :=
  MkPoint create_zero_bignumber create_zero_bignumber create_zero_bignumber create_zero_bignumber.

(* extended_point.rs lines 65-76 *)
Definition pniels_to_extended (n : pniels) : option point :=
  let eu := add (nb (pn n)) (na (pn n)) in
  qy <- sub (nb (pn n)) (na (pn n)) ;;
  let qt := mul qy eu in
  let qx := mul (pnz n) qy in
  let qy := mul (pnz n) eu in
  let qz := square (pnz n) in
  Some (MkPoint qx qy qz qt).

(* extended_point.rs lines 95-100 *)
Definition identity_point : point := MkPoint BIG_ZERO BIG_ONE BIG_ONE BIG_ZERO.

(* extended_point.rs lines 102-122 *)
Definition double_internal (p : point) (before_double : bool) : option point :=
  let c := square (px p) in
  let a := square (py p) in
  let d := add_raw c a in
  let t := add_raw (px p) (py p) in
  let b := square t in
  b <- sub_x_bias b d 0x03 ;;
  t <- sub a c ;;
  let x := square (pz p) in
  let z := add_raw x x in
  a <- sub_x_bias z t 0x04 ;;
  let x := mul a b in
  let z := mul t a in
  let y := mul t d in
  let t := if negb before_double then mul b d else t in
  Some (MkPoint x y z t).

(* extended_point.rs lines 124-130 *)
Definition mod_equal (p1 p2 : point) : option bool :=
  let a := mul (py p1) (px p2) in
  let b := mul (px p1) (py p2) in
  valid <- decaf_equal a b ;;
  Some (valid =? DECAF_TRUE).

(* extended_point.rs lines 132-148 *)
Definition add_niels_to_extended (p : point) (np : niels) (before_double : bool) : option point :=
  b <- sub (py p) (px p) ;;
  let a := mul (na np) b in
  let b := add_raw (px p) (py p) in
  let y := mul (nb np) b in
  let x := mul (nc np) (pt p) in
  let c := add_raw a y in
  b <- sub y a ;;
  y <- sub (pz p) x ;;
  let a := add_raw x (pz p) in
  let z := mul a y in
  let x := mul y b in
  let y := mul a c in
  let t := if negb before_double then mul b c else pt p in
  Some (MkPoint x y z t).

(* extended_point.rs lines 150-166 *)
Definition sub_niels_from_extended_point (p : point) (np : niels) (before_double : bool)
  : option point :=
  b <- sub (py p) (px p) ;;
  let a := mul (nb np) b in
  let b := add_raw (px p) (py p) in
  let y := mul (na np) b in
  let x := mul (nc np) (pt p) in
  let c := add_raw a y in
  b <- sub y a ;;
  let y := add_raw (pz p) x in
  a <- sub (pz p) x ;;
  let z := mul a y in
  let x := mul y b in
  let y := mul a c in
  let t := if negb before_double then mul b c else pt p in
  Some (MkPoint x y z t).

(* extended_point.rs lines 168-176 *)
Definition add_projected_niels_to_extended (p : point) (np : pniels) (before_double : bool)
  : option point :=
  let tmp := mul (pz p) (pnz np) in
  add_niels_to_extended (MkPoint (px p) (py p) tmp (pt p)) (pn np) before_double.

(* extended_point.rs lines 178-186 *)
Definition sub_projected_niels_from_extended_point (p : point) (np : pniels) (before_double : bool)
  : option point :=
  let tmp := mul (pz p) (pnz np) in
  sub_niels_from_extended_point (MkPoint (px p) (py p) tmp (pt p)) (pn np) before_double.

(* extended_point.rs lines 188-212; "as u8" of ZERO_MASK & low_bit keeps a value < 256 *)
Definition eddsa_like_encode (p : point) : option (list Z) :=
  let x := square (px p) in
  let t := square (py p) in
  let u := add x t in
  let z := add (py p) (px p) in
  let y := square z in
  y <- sub u y ;;
  z <- sub t x ;;
  let x := square (pz p) in
  let t := add x x in
  t <- sub t z ;;
  let x := mul t y in
  let y := mul z u in
  let z := mul u t in
  z <- invert z ;;
  let t := mul x z in
  let x := mul y z in
  ser <- dsa_like_serialize x ;;
  lb <- low_bit t ;;
  Some (ser ++ [Z.land (Z.land ZERO_MASK lb) 0xff]).

(* extended_point.rs lines 214-230 *)
Definition is_on_curve (p : point) : option bool :=
  let a := mul (px p) (py p) in
  let b := mul (pz p) (pt p) in
  valid <- decaf_equal a b ;;
  let a := square (px p) in
  let b := square (py p) in
  a <- sub b a ;;
  let b := square (pt p) in
  c <- mul_w b (1 - EDWARDS_D) ;;
  let b := square (pz p) in
  b <- sub b c ;;
  v <- decaf_equal a b ;;
  let valid := Z.land valid v in
  v <- decaf_equal (pz p) BIG_ZERO ;;
  let valid := Z.land valid (not32 v) in
  Some (valid =? DECAF_TRUE).

(* extended_point.rs lines 232-242; (2 * EDWARDS_D) - 2 is a constant *)
Definition to_projected_niels (p : point) : option pniels :=
  a <- sub (py p) (px p) ;;
  let b := add (px p) (py p) in
  c <- mul_with_signed_curve_constant (pt p) (2 * EDWARDS_D - 2) ;;
  let z := add (pz p) (pz p) in
  Some (PNiels (Niels a b c) z).

(* extended_point.rs lines 253-256: n more table entries *)
Fixpoint window_loop (n : nat) (p_original : point) (step : pniels) : option (list pniels) :=
  match n with
  | O => Some []
  | S n' =>
      p_original <- add_projected_niels_to_extended p_original step false ;;
      e <- to_projected_niels p_original ;;
      r <- window_loop n' p_original step ;;
      Some (e :: r)
  end.
(* extended_point.rs lines 244-259 *)
Definition prepare_fixed_window (p : point) : option (list pniels) :=
  p_temp <- double_internal p false ;;
  step <- to_projected_niels p_temp ;;
  e <- to_projected_niels p ;;
  r <- window_loop 15 p step ;;
  Some (e :: r).

(* extended_point.rs lines 420-423 *)
Definition niels_conditional_negate (n : niels) (neg : Z) : option niels :=
  let '(a, b) := conditional_swap (na n) (nb n) neg in
  c <- conditional_negate (nc n) neg ;;
  Some (Niels a b c).

(* extended_point.rs lines 425-433 *)
Definition niels_to_extended (n : niels) : option point :=
  let y := add (nb n) (na n) in
  x <- sub (nb n) (na n) ;;
  let t := mul y x in
  Some (MkPoint x y BIG_ONE t).

(* extended_point.rs lines 279-285: the window digit at bit position i1 and its sign mask;
   the shift amounts are below 32 whenever they are used *)
Definition window_digit (s : scalar) (i1 : Z) : option (Z * Z) :=
  w <- znth s (i1 / WORD_BITS) ;;
  let bits := Z.shiftr w (i1 mod WORD_BITS) in
  bits <- (if (i1 mod WORD_BITS >=? WORD_BITS - 5) && (i1 / WORD_BITS <? SCALAR_WORDS - 1)
           then w' <- znth s (i1 / WORD_BITS + 1) ;;
                Some (Z.lxor bits (shl32 w' (WORD_BITS - i1 mod WORD_BITS)))
           else Some bits) ;;
  let bits := Z.land bits 31 in
  let inv := wsub32 (Z.shiftr bits 4) 1 in
  Some (Z.lxor bits inv, inv).

(* four doublings without t and one with t: lines 295-298 *)
Definition double5 (p : point) : option point :=
  p <- double_internal p true ;;
  p <- double_internal p true ;;
  p <- double_internal p true ;;
  p <- double_internal p true ;;
  double_internal p false.

(* extended_point.rs lines 277-303: [out] is None as long as "first" is true *)
Fixpoint scalar_mul_loop (fuel : nat) (s : scalar) (multiples : list pniels) (i : Z)
  (out : option point) : option (option point) :=
  if i >=? 0 then
    match fuel with
    | O => None
    | S f =>
        '(bits, inv) <- window_digit s i ;;
        m <- znth multiples (Z.land bits 15) ;;
        n <- niels_conditional_negate (pn m) inv ;;
        let p_neg := PNiels n (pnz m) in
        out' <- (match out with
                 | None => pniels_to_extended p_neg
                 | Some o =>
                     o <- double5 o ;;
                     add_projected_niels_to_extended o p_neg false
                 end) ;;
        scalar_mul_loop f s multiples (i - 5) (Some out')
    end
  else Some out.

(* extended_point.rs lines 261-305; the start index is
   SCALAR_BITS - ((SCALAR_BITS - 1) % 5) - 1 *)
Definition point_scalar_mul (p : point) (s : scalar) : option point :=
  scalar1x <- sadd s scalar_adjustment ;;
  let scalar1x := halve scalar1x in
  multiples <- prepare_fixed_window p ;;
  r <- scalar_mul_loop 100 scalar1x multiples
         (SCALAR_BITS - (SCALAR_BITS - 1) mod 5 - 1) None ;;
  match r with
  | Some out => Some out
  | None => Some point_new
  end.

(* extended_point.rs lines 436-446: n = 0 gives 32; the loop ends after at most 32 rounds *)
Fixpoint tz_loop (fuel : nat) (n r : Z) : option Z :=
  match fuel with
  | O => None
  | S f => if n mod 2 =? 0 then tz_loop f (n / 2) (r + 1) else Some r
  end.
Definition trailing_zeroes_32 (n : Z) : option Z :=
  if n =? 0 then Some 32 else tz_loop 32 n 0.

(* extended_point.rs lines 464-475: while loop of recode_wnaf; state (control, position, current).
   Non-wrapping: the i64 subtraction, position -= 1 (usize); [delta << pos] is an i32 shift. *)
Fixpoint recode_while (fuel : nat) (table_bits w : Z) (control : list smvt) (position current : Z)
  : option (list smvt * Z * Z) :=
  if Z.land current 0xffff =? 0 then Some (control, position, current)
  else
    match fuel with
    | O => None
    | S f =>
        pos <- trailing_zeroes_32 (wrap32 current) ;;
        let odd := Z.shiftr (wrap32 current) pos in
        let delta := Z.land odd (2 ^ (table_bits + 1) - 1) in
        let delta := if negb (Z.land odd (2 ^ (table_bits + 1)) =? 0)
                     then delta - 2 ^ (table_bits + 1) else delta in
        d <- chk_i64 (as_i64 current - as_i32 (wrap32 (Z.shiftl delta pos))) ;;
        let current := wrap64 d in
        control <- zupd control position (Smvt (pos + 16 * (w - 1)) delta) ;;
        position <- chk_usize (position - 1) ;;
        recode_while f table_bits w control position current
    end.
(* extended_point.rs lines 460-477: for w in w0..30 *)
Fixpoint recode_for (rounds : nat) (w : Z) (s : scalar) (table_bits : Z)
  (control : list smvt) (position current : Z) : option (list smvt * Z * Z) :=
  match rounds with
  | O => Some (control, position, current)
  | S n =>
      current <- (if w <? 28
                  then sw <- znth s (w / 2) ;;
                       chk_u64 (current + shl32 (Z.shiftr sw (16 * (w mod 2))) 16)
                  else Some current) ;;
      '(control, position, current) <- recode_while 20 table_bits w control position current ;;
      recode_for n (w + 1) s table_bits control position (Z.shiftr current 16)
  end.
(* extended_point.rs lines 481-483: control[i] = control[i + position] for i in i0..n *)
Fixpoint recode_copy (rounds : nat) (i position : Z) (control : list smvt) : option (list smvt) :=
  match rounds with
  | O => Some control
  | S n =>
      c <- znth control (i + position) ;;
      control <- zupd control i c ;;
      recode_copy n (i + 1) position control
  end.
(* extended_point.rs lines 448-485: returns the new control array and the result *)
Definition recode_wnaf (control : list smvt) (s : scalar) (table_bits : Z)
  : option (list smvt * Z) :=
  let table_size := 446 / (table_bits + 1) + 3 in
  let position := table_size - 1 in
  control <- zupd control position (Smvt (-1) 0) ;;
  let position := position - 1 in
  s0 <- znth s 0 ;;
  let current := Z.land s0 0xffff in
  '(control, position, _) <- recode_for 29 1 s table_bits control position current ;;
  let position := position + 1 in
  n <- chk_usize (table_size - position) ;;
  control <- recode_copy (Z.to_nat n) 0 position control ;;
  r <- chk_usize (n - 1) ;;
  Some (control, wrap32 r).

(* extended_point.rs lines 505-508: entries 2 .. 2^table_size - 1 *)
Fixpoint wnaf_loop (n : nat) (p : point) (tw_op : pniels) : option (list pniels) :=
  match n with
  | O => Some []
  | S n' =>
      p <- add_projected_niels_to_extended p tw_op false ;;
      e <- to_projected_niels p ;;
      r <- wnaf_loop n' p tw_op ;;
      Some (e :: r)
  end.
(* extended_point.rs lines 487-509 for table_size = 3 and an 8-entry dst, the only call
   (line 335); returns the whole table (every entry of dst is overwritten) *)
Definition decaf_prepare_wnaf_table (p : point) : option (list pniels) :=
  dst0 <- to_projected_niels p ;;
  p <- double_internal p false ;;
  tw_op <- to_projected_niels p ;;
  p <- add_projected_niels_to_extended p dst0 false ;;
  dst1 <- to_projected_niels p ;;
  r <- wnaf_loop 6 p tw_op ;;
  Some (dst0 :: dst1 :: r).

(* "(addend as usize) >> 1" for an i64 addend *)
Definition usize_half (a : Z) : Z := Z.shiftr (wrap64 a) 1.

(* extended_point.rs lines 374-383 and 385-394: the digit of the variable table, then the digit of
   the fixed table.  (-addend) is a non-wrapping i64 negation. *)
Definition var_step (cv cp : bool) (i : Z) (c : smvt) (precmp_var : list pniels) (out : point)
  : option point :=
  if cv then
    if addend c >? 0 then
      e <- znth precmp_var (usize_half (addend c)) ;;
      add_projected_niels_to_extended out e (negb (i =? 0) && negb cp)
    else
      a <- chk_i64 (- addend c) ;;
      e <- znth precmp_var (usize_half a) ;;
      sub_projected_niels_from_extended_point out e (negb (i =? 0) && negb cp)
  else Some out.
Definition pre_step (cp : bool) (i : Z) (c : smvt) (out : point) : option point :=
  if cp then
    if addend c >? 0 then
      e <- znth DECAF_WNAF_TABLE (usize_half (addend c)) ;;
      add_niels_to_extended out e (negb (i =? 0))
    else
      a <- chk_i64 (- addend c) ;;
      e <- znth DECAF_WNAF_TABLE (usize_half a) ;;
      sub_niels_from_extended_point out e (negb (i =? 0))
  else Some out.

(* extended_point.rs lines 368-397 *)
Fixpoint double_mul_loop (fuel : nat) (control_var control_pre : list smvt)
  (precmp_var : list pniels) (i contv contp : Z) (out : point) : option point :=
  if i >=? 0 then
    match fuel with
    | O => None
    | S f =>
        c_v <- znth control_var contv ;;
        c_p <- znth control_pre contp ;;
        let cv := i =? power c_v in
        let cp := i =? power c_p in
        out <- double_internal out (negb (i =? 0) && negb (cv || cp)) ;;
        out <- var_step cv cp i c_v precmp_var out ;;
        out <- pre_step cp i c_p out ;;
        double_mul_loop f control_var control_pre precmp_var (i - 1)
          (if cv then contv + 1 else contv) (if cp then contp + 1 else contp) out
    end
  else Some out.

(* extended_point.rs lines 307-402 *)
Definition point_double_scalamul_non_secret (p : point) (scalar_pre scalar_var : scalar)
  : option point :=
  let control_var := repeat smvt_new 115 in
  let control_pre := repeat smvt_new 77 in
  '(control_pre, _) <- recode_wnaf control_pre scalar_pre 5 ;;
  '(control_var, _) <- recode_wnaf control_var scalar_var 3 ;;
  precmp_var <- decaf_prepare_wnaf_table p ;;
  cv0 <- znth control_var 0 ;;
  cp0 <- znth control_pre 0 ;;
  let index := Z.shiftr (addend cv0) 1 in
  let i := power cv0 in
  '(out, i, contv, contp) <-
    (if i >? power cp0 then
       e <- znth precmp_var (wrap64 index) ;;
       out <- pniels_to_extended e ;;
       Some (out, i, 1, 0)
     else if (i =? power cp0) && (i >=? 0) then
       e <- znth precmp_var (wrap64 index) ;;
       out <- pniels_to_extended e ;;
       n <- znth DECAF_WNAF_TABLE (usize_half (addend cp0)) ;;
       out <- add_niels_to_extended out n (negb (i =? 0)) ;;
       Some (out, i, 1, 1)
     else
       n <- znth DECAF_WNAF_TABLE (usize_half (addend cp0)) ;;
       out <- niels_to_extended n ;;
       Some (out, power cp0, 0, 1)) ;;
  if i <? 0 then Some identity_point
  else double_mul_loop 500 control_var control_pre precmp_var (i - 1) contv contp out.

(* extended_point.rs lines 513-568 *)
Definition eddsa_like_decode (src_org : list Z) : option (result point error) :=
  if negb (Z.of_nat (length src_org) =? 57) then Some (Err InvalidLengthError)
  else
    src56 <- znth src_org FIELD_BYTES ;;
    let low := not32 (is_zero_mask (Z.land ZERO_MASK src56)) in
    let src56 := Z.land src56 0x7f in
    src <- zupd src_org FIELD_BYTES src56 ;;
    let succ := is_zero_mask src56 in
    '(y, succ1) <- dsa_like_deserialize src 0 ;;
    let succ := Z.land succ succ1 in
    let x := square y in
    z <- sub BIG_ONE x ;;
    t <- mul_with_signed_curve_constant x EDWARDS_D ;;
    t <- sub BIG_ONE t ;;
    let x := mul z t in
    t <- isr x ;;
    let x := mul t z in
    lb <- low_bit x ;;
    x <- decaf_cond_negate x (Z.lxor (not32 lb) low) ;;
    let z := BIG_ONE in
    let c := square x in
    let a := square y in
    let d := add c a in
    let t := add y x in
    let b := square t in
    b <- sub b d ;;
    t <- sub a c ;;
    let x := square z in
    let z := add x x in
    a <- sub z d ;;
    let x := mul a b in
    let z := mul t a in
    let y := mul t d in
    let t := mul b d in
    let p := MkPoint x y z t in
    ok <- is_on_curve p ;;
    if negb ok || (succ =? DECAF_FALSE) then Some (Err DecodeError)
    else
      let scalar_one_forth := halve (halve SCALAR_ONE) in
      p <- point_scalar_mul p scalar_one_forth ;;
      Some (Ok p).

(* extended_point.rs lines 582-588: tab for comb j at step i; k runs over the teeth *)
Fixpoint comb_tab (teeth : nat) (k : Z) (s : scalar) (i j tab : Z) : option Z :=
  match teeth with
  | O => Some tab
  | S n =>
      let bit := i + DECAF_COMB_SPACING * (k + j * DECAF_COMB_TEETH) in
      tab <- (if bit <? SCALAR_BITS
              then w <- znth s (bit / WORD_BITS) ;;
                   Some (Z.lor tab (shl32 (Z.land (Z.shiftr w (bit mod WORD_BITS)) 1) k))
              else Some tab) ;;
      comb_tab n (k + 1) s i j tab
  end.
(* extended_point.rs lines 581-602: combs j, j+1, ...; [invert] is an i32 (the -1 cannot overflow) *)
Fixpoint comb_inner (rounds : nat) (j : Z) (s : scalar) (i : Z) (p : point) : option point :=
  match rounds with
  | O => Some p
  | S n =>
      tab <- comb_tab 5 0 s i j 0 ;;
      let invert := Z.shiftr (as_i32 tab) (DECAF_COMB_TEETH - 1) - 1 in
      let tab := Z.lxor tab (wrap32 invert) in
      let tab := Z.land tab (2 ^ (DECAF_COMB_TEETH - 1) - 1) in
      let index := Z.shiftl j (DECAF_COMB_TEETH - 1) + tab in
      np <- znth comb_base index ;;
      np <- niels_conditional_negate np (wrap32 invert) ;;
      p <- (if negb (i =? DECAF_COMB_SPACING - 1) || negb (j =? 0)
            then add_niels_to_extended p np ((j =? DECAF_COMB_NUMBER - 1) && negb (i =? 0))
            else niels_to_extended np) ;;
      comb_inner n (j + 1) s i p
  end.
(* extended_point.rs lines 576-603: i = rounds - 1, ..., 0 *)
Fixpoint comb_outer (rounds : nat) (s : scalar) (p : point) : option point :=
  match rounds with
  | O => Some p
  | S n =>
      let i := Z.of_nat n in
      p <- (if negb (i =? DECAF_COMB_SPACING - 1) then double_internal p false else Some p) ;;
      p <- comb_inner 5 0 s i p ;;
      comb_outer n s p
  end.
(* extended_point.rs lines 570-606 *)
Definition precomputed_scalar_mul (s : scalar) : option point :=
  scalar2 <- sadd s scalar_adjustment ;;
  let scalar2 := halve scalar2 in
  comb_outer 18 scalar2 point_new.
