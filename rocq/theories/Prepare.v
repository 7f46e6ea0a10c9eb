(* Model of /repo/src/extended_point.rs lines 487-509, decaf_prepare_wnaf_table, for every table and every size; ExtendedPoint.v
   models its only call.  The result is the table and the point after the call (both are passed as &mut). *)
From Coq Require Import ZArith List Bool.
From Verif Require Import Base ExtendedPoint.
Import ListNotations.
Open Scope Z_scope.

(* lines 505-508: the entries after the first two, at most n of them *)
Fixpoint fill (n : nat) (rest : list pniels) (p : point) (tw_op : pniels) : option (list pniels * point) :=
  match n, rest with
  | S n', _ :: rest' =>
      p <- add_projected_niels_to_extended p tw_op false ;;
      e <- to_projected_niels p ;;
      '(r, p) <- fill n' rest' p tw_op ;;
      Some (e :: r, p)
  | _, _ => Some (rest, p)
  end.
(* 1 << table_size in usize: a trap for 64 and more *)
Definition shl_one (table_size : Z) : option Z :=
  if (0 <=? table_size) && (table_size <? 64) then Some (shl64 1 table_size) else None.
(* lines 487-509; take(m).skip(2) ends with the table, hence the minimum *)
Definition prepare_table (dst : list pniels) (p : point) (table_size : Z) : option (list pniels * point) :=
  e <- to_projected_niels p ;;
  dst <- zupd dst 0 e ;;
  if table_size =? 0 then Some (dst, p)
  else
    p <- double_internal p false ;;
    tw_op <- to_projected_niels p ;;
    dst0 <- znth dst 0 ;;
    p <- add_projected_niels_to_extended p dst0 false ;;
    e <- to_projected_niels p ;;
    dst <- zupd dst 1 e ;;
    m <- shl_one table_size ;;
    '(rest, p) <- fill (Z.to_nat (Z.min (m - 2) (Z.of_nat (length dst)))) (skipn 2 dst) p tw_op ;;
    Some (firstn 2 dst ++ rest, p).
