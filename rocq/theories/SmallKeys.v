(* Public keys of small order; how many expanded-secret keys have the same public key. *)
From Coq Require Import ZArith List Bool Lia.
From Verif Require Import SpecField SpecBytes SpecScalar SpecCurve SpecDecode SpecEd448 SpecUniform SpecStructure.
From Verif Require Import Base Bytes ScalarProofs Errors ExtendedPoint Eddsa Goldilocks.
From Verif Require Import Field Edwards Isogeny CombMul BaseTables PrimeQ Decode Torsion Ed448 Order Equation Facts Kernel Uniform Count Witness Bind Protocol Structure Samples.
Import ListNotations.
Open Scope Z_scope.

(* strings from 57 bytes *)
Lemma src_split : forall src, length src = 57%nat -> bytes src -> src = le_bytes 56 (enc_y src) ++ [nth 56 src 0].
Proof.
  intros src L B. assert (L56 : length (firstn 56 src) = 56%nat) by (rewrite firstn_length, L; reflexivity).
  unfold enc_y. rewrite <- L56 at 1. rewrite le_bytes_le_val by (apply bytes_firstn; exact B).
  rewrite <- (firstn_skipn 56 src) at 1. f_equal.
  assert (L1 : length (skipn 56 src) = 1%nat) by (rewrite skipn_length, L; reflexivity).
  rewrite <- (firstn_skipn 56 src) at 2. rewrite app_nth2 by (rewrite L56; apply Nat.le_refl). rewrite L56, Nat.sub_diag.
  destruct (skipn 56 src) as [|b [|c t]]; [ discriminate L1 | reflexivity | discriminate L1 ].
Qed.
Lemma enc_parts : forall y b, 0 <= y < 2 ^ 448 -> enc_y (le_bytes 56 y ++ [b]) = y /\ nth 56 (le_bytes 56 y ++ [b]) 0 = b.
Proof.
  intros y b H. split.
  - unfold enc_y. rewrite firstn_app, le_bytes_length, Nat.sub_diag, firstn_O, app_nil_r, firstn_all2 by (rewrite le_bytes_length; apply Nat.le_refl).
    rewrite le_val_le_bytes. apply Z.mod_small. exact H.
  - rewrite app_nth2 by (rewrite le_bytes_length; apply Nat.le_refl). rewrite le_bytes_length. reflexivity.
Qed.
Lemma small_list : forall src, In src small_encodings <-> exists y b, In y [0; 1; p448 - 1; p448; p448 + 1] /\ In b [0; 128] /\ src = le_bytes 56 y ++ [b].
Proof.
  intro src. unfold small_encodings. rewrite in_flat_map. split.
  - intros (y & Hy & [ E | [ E | [] ] ]); [ exists y, 0 | exists y, 128 ]; (split; [ exact Hy | split; [ cbn [In]; tauto | symmetry; exact E ] ]).
  - intros (y & b & Hy & Hb & ->). exists y. split; [ exact Hy | ]. destruct Hb as [ <- | [ <- | [] ] ]; [ left | right; left ]; reflexivity.
Qed.

Lemma fval_mone : fval (fopp fone) = p448 - 1.
Proof. change fone with (mkF 1). rewrite <- mkF_opp, fval_mkF. vm_compute. reflexivity. Qed.
Lemma y_values : forall y v, 0 <= y < 2 ^ 448 -> y mod p448 = v -> y = v \/ y = v + p448.
Proof.
  intros y v H E. pose proof (Z.div_mod y p448 ltac:(discriminate)) as D. rewrite E in D.
  pose proof (Z.mod_pos_bound y p448 eq_refl) as R. rewrite E in R. assert (Q : 2 ^ 448 < 2 * p448) by reflexivity.
  assert (0 <= y / p448 < 2).
  { clear E. revert H D R Q. generalize p448 (2 ^ 448) (y / p448). intros p m c H D R Q. nia. }
  assert (C : y / p448 = 0 \/ y / p448 = 1) by lia. destruct C as [ C | C ]; rewrite C in D; lia.
Qed.
Theorem small_only : forall src A, bytes src -> decodable src -> denotes src A -> emul 4 A = ezero -> In src small_encodings.
Proof.
  intros src (x, y) B D (ON & EY & ES) E4. cbn [fst snd] in EY, ES. destruct D as (L & PAD & _). apply small_list.
  assert (Y : 0 <= enc_y src < 2 ^ 448).
  { unfold enc_y. replace (2 ^ 448) with (256 ^ Z.of_nat (length (firstn 56 src))) by (rewrite firstn_length, L; reflexivity). apply le_val_range. apply bytes_firstn. exact B. }
  assert (Bb : byte (nth 56 src 0)) by (apply (proj1 (Forall_forall _ _) B); apply nth_In; rewrite L; apply Nat.lt_succ_diag_r).
  exists (enc_y src), (nth 56 src 0). split; [ | split; [ | apply src_split; assumption ] ].
  - assert (V : enc_y src mod p448 = fval y) by (rewrite EY, fval_mkF; reflexivity).
    destruct (torsion4 x y ON E4) as [ (_ & H) | (H & _) ]; [ destruct (sq_one y H) as [ H1 | H1 ] | ].
    + rewrite H1, fval_fone in V. destruct (y_values _ _ Y V) as [ -> | -> ]; cbn [In]; [ tauto | ]. rewrite (Z.add_comm p448 1). tauto.
    + rewrite H1, fval_mone in V. destruct (y_values _ _ Y V) as [ E | E ]; [ rewrite E; cbn [In]; tauto | exfalso ].
      assert (Q : 2 ^ 448 < p448 - 1 + p448) by reflexivity. lia.
    + rewrite H, fval_fzero in V. destruct (y_values _ _ Y V) as [ -> | -> ]; cbn [In]; tauto.
  - unfold enc_pad_ok in PAD. apply Z.eqb_eq in PAD. unfold byte in Bb. pose proof (Z.div_mod (nth 56 src 0) 128 ltac:(lia)) as D. rewrite PAD in D.
    assert (C : nth 56 src 0 / 128 = 0 \/ nth 56 src 0 / 128 = 1) by lia. destruct C as [ C | C ]; rewrite C in D; rewrite D; cbn; tauto.
Qed.

Lemma small_build : forall y b x v, 0 <= y < 2 ^ 448 -> In b [0; 128] -> on_curve (mkF x, mkF v) -> emul 4 (mkF x, mkF v) = ezero -> y mod p448 = v mod p448 ->
  (x mod p448 = 0 \/ Z.odd (x mod p448) = (128 <=? b)) -> range_test y = true -> low_zero (denominator (mkF x) (mkF v)) = false ->
  let src := le_bytes 56 y ++ [b] in
  bytes src /\ decodable src /\ exists A, denotes src A /\ emul 4 A = ezero.
Proof.
  intros y b x v Hy Hb ON E4 E S T D src. destruct (enc_parts y b Hy) as (P1 & P2).
  assert (B : bytes src).
  { apply bytes_app. split; [ apply le_bytes_bytes | ]. constructor; [ | constructor ]. unfold byte. cbn [In] in Hb. lia. }
  assert (L : length src = 57%nat) by (unfold src; rewrite app_length, le_bytes_length; reflexivity).
  assert (N : denotes src (mkF x, mkF v)).
  { split; [ exact ON | ]. cbn [fst snd]. split; [ unfold src; rewrite P1; apply mkF_eq; symmetry; exact E | ].
    intro NZ. rewrite fval_mkF. unfold enc_sign, src. rewrite P2. destruct S as [ S | S ]; [ exfalso; apply NZ | exact S ].
    change fzero with (mkF 0). apply mkF_eq. rewrite S. reflexivity. }
  split; [ exact B | ]. split; [ | exists (mkF x, mkF v); split; [ exact N | exact E4 ] ].
  apply (proj2 (decodable_denotes src (mkF x, mkF v) L ltac:(unfold enc_pad_ok, src; rewrite P2; destruct Hb as [ <- | [ <- | [] ] ]; reflexivity) N)).
  cbn [fst snd]. unfold src. rewrite P1. split; [ exact T | exact D ].
Qed.
Lemma four_zero : forall j, emul 4 (emul j pt4) = ezero.
Proof. intro j. rewrite <- emul_mul, Z.mul_comm, emul_mul, pt4_4 by exact pt4_on. apply emul_ezero. Qed.
Lemma four_are : forall x v, (x, v) = (0, 1) \/ (x, v) = (1, 0) \/ (x, v) = (0, -1) \/ (x, v) = (-1, 0) ->
  on_curve (mkF x, mkF v) /\ emul 4 (mkF x, mkF v) = ezero /\ low_zero (denominator (mkF x) (mkF v)) = false.
Proof.
  intros x v C. split; [ | split ].
  - destruct C as [ C | [ C | [ C | C ] ] ]; injection C as -> ->; unfold on_curve; change (mkF 0) with fzero; change (mkF 1) with fone;
      change (-1) with (Z.opp 1); rewrite ?mkF_opp; change (mkF 1) with fone; ring.
  - assert (K : exists j, (mkF x, mkF v) = emul j pt4).
    { destruct C as [ C | [ C | [ C | C ] ] ]; injection C as -> ->; [ exists 0 | exists 1 | exists 2 | exists 3 ];
        change (mkF 0) with fzero; change (mkF 1) with fone; change (-1) with (Z.opp 1); rewrite ?mkF_opp; change (mkF 1) with fone.
      - symmetry. apply emul_0.
      - symmetry. apply emul_1.
      - symmetry. exact pt4_2.
      - symmetry. exact pt4_3. }
    destruct K as (j & ->). apply four_zero.
  - rewrite denominator_mkF, low_zero_mkF. destruct C as [ C | [ C | [ C | C ] ] ]; injection C as -> ->; vm_compute; reflexivity.
Qed.
Theorem small_all : forall src, In src small_encodings -> bytes src /\ decodable src /\ exists A, denotes src A /\ emul 4 A = ezero.
Proof.
  intros src H. apply small_list in H. destruct H as (y & b & Hy & Hb & ->).
  assert (Go : forall x v, (x, v) = (0, 1) \/ (x, v) = (1, 0) \/ (x, v) = (0, -1) \/ (x, v) = (-1, 0) -> 0 <= y < 2 ^ 448 -> y mod p448 = v mod p448 ->
    (x mod p448 = 0 \/ Z.odd (x mod p448) = (128 <=? b)) -> range_test y = true ->
    bytes (le_bytes 56 y ++ [b]) /\ decodable (le_bytes 56 y ++ [b]) /\ exists A, denotes (le_bytes 56 y ++ [b]) A /\ emul 4 A = ezero).
  { intros x v C R E S T. destruct (four_are x v C) as (F1 & F2 & F3). exact (small_build y b x v R Hb F1 F2 E S T F3). }
  destruct Hy as [ <- | [ <- | [ <- | [ <- | [ <- | [] ] ] ] ] ].
  - destruct Hb as [ <- | [ <- | [] ] ].
    + apply (Go (-1) 0); [ tauto | split; [ discriminate | reflexivity ] | reflexivity | right; vm_compute; reflexivity | vm_compute; reflexivity ].
    + apply (Go 1 0); [ tauto | split; [ discriminate | reflexivity ] | reflexivity | right; vm_compute; reflexivity | vm_compute; reflexivity ].
  - apply (Go 0 1); [ tauto | split; [ discriminate | reflexivity ] | reflexivity | left; reflexivity | vm_compute; reflexivity ].
  - apply (Go 0 (-1)); [ tauto | split; [ discriminate | reflexivity ] | reflexivity | left; reflexivity | vm_compute; reflexivity ].
  - destruct Hb as [ <- | [ <- | [] ] ].
    + apply (Go (-1) 0); [ tauto | split; [ discriminate | reflexivity ] | reflexivity | right; vm_compute; reflexivity | vm_compute; reflexivity ].
    + apply (Go 1 0); [ tauto | split; [ discriminate | reflexivity ] | reflexivity | right; vm_compute; reflexivity | vm_compute; reflexivity ].
  - apply (Go 0 1); [ tauto | split; [ discriminate | reflexivity ] | reflexivity | left; reflexivity | vm_compute; reflexivity ].
Qed.
Theorem small_keys : forall src, bytes src ->
  ((exists p A, eddsa_like_decode src = Some (Ok p) /\ denotes src A /\ emul 4 A = ezero) <-> In src small_encodings).
Proof.
  intros src B. destruct (decode_iff src B) as (D1 & D2 & _). split.
  - intros (p & A & E & N & Z0). exact (small_only src A B (D1 p E) N Z0).
  - intro H. destruct (small_all src H) as (_ & D & A & N & Z0). destruct (D2 D) as (p & E). exists p, A. split; [ exact E | ]. split; [ exact N | exact Z0 ].
Qed.
Lemma four_subgroup : forall A, on_curve A -> emul 4 A = ezero -> subgroup_part A = ezero.
Proof.
  intros A C E. unfold subgroup_part. replace (q448 + 1) with ((q448 + 1) / 4 * 4) by (vm_compute; reflexivity).
  rewrite emul_mul, E by exact C. apply emul_ezero.
Qed.
Theorem small_forgery : forall xof, is_xof xof -> forall pub, In pub small_encodings -> pub <> repeat 0 57 ->
  exists sig, length sig = 114%nat /\ bytes sig /\ forall message, ed448_verify xof pub sig message = Some (Ok true).
Proof.
  intros xof X pub H NZ. destruct (small_all pub H) as (B & D & A & N & Z0). exists (eencode (emul 4 ebase) ++ le_bytes 57 4).
  destruct (sig_parts (emul 4 ebase) 4) as (_ & _ & B4 & L4). split; [ exact L4 | ]. split; [ exact B4 | ]. intro message.
  apply (small_key_forgery xof X pub A 4 B NZ D N (four_subgroup A (proj1 N) Z0)); [ split; [ discriminate | reflexivity ] | exact four_decodable ].
Qed.
Lemma small_distinct : NoDup small_encodings /\ length small_encodings = 10%nat.
Proof.
  split; [ | reflexivity ]. apply (NoDup_count_occ' (list_eq_dec Z.eq_dec)). intros x H.
  assert (K : forallb (fun x => Nat.eqb (count_occ (list_eq_dec Z.eq_dec) small_encodings x) 1) small_encodings = true) by (vm_compute; reflexivity).
  rewrite forallb_forall in K. apply Nat.eqb_eq. apply K. exact H.
Qed.

(* strings of n bytes and numbers below 256^n *)
Lemma fold_nsum : forall c m, fold_right (fun x s => c x + s) 0 (map Z.of_nat (seq 0 m)) = nsum c m.
Proof.
  intros c. assert (K : forall l a, fold_right (fun x s => c x + s) a l = fold_right (fun x s => c x + s) 0 l + a).
  { induction l as [ | x l IH ]; intro a; [ reflexivity | ]. cbn [fold_right]. rewrite IH. ring. }
  induction m as [ | m IH ]; [ reflexivity | ]. rewrite seq_S, map_app, fold_right_app. cbn [map fold_right Nat.add]. rewrite K, IH. cbn [nsum]. ring.
Qed.
Lemma nsum_zsum : forall c m n, Z.of_nat m = n -> nsum c m = zsum c n.
Proof. intros c m n <-. unfold zsum. rewrite Nat2Z.id. reflexivity. Qed.
Lemma tally_strings : forall n f, tally f (strings n) = zsum (fun z => if f (le_bytes n z) then 1 else 0) (256 ^ Z.of_nat n).
Proof.
  induction n as [ | n IH ]; intro f.
  - cbn. unfold zsum. cbn. destruct (f []); reflexivity.
  - rewrite Nat2Z.inj_succ, Z.pow_succ_r by lia. rewrite zsum_mul by (try apply Z.pow_nonneg; lia).
    assert (E : strings (S n) = flat_map (fun b => map (cons b) (strings n)) all_bytes) by reflexivity. rewrite E.
    rewrite (count_flat _ _ _ f (fun b => zsum (fun z => if f (b :: le_bytes n z) then 1 else 0) (256 ^ Z.of_nat n))).
    2:{ intros b _. rewrite count_map. apply (IH (fun s => f (b :: s))). }
    unfold all_bytes. rewrite fold_nsum, (nsum_zsum _ 256 256 eq_refl).
    apply zsum_ext. intros b Hb. apply zsum_ext. intros z Hz. cbn [le_bytes].
    rewrite (Z.mul_comm 256 z), Z.mod_add, Z.mod_small, Z.div_add, Z.div_small, Z.add_0_l by lia. reflexivity.
Qed.
Lemma zsum_point : forall t n c, 0 <= t < n -> zsum (fun i => if i =? t then c else 0) n = c.
Proof.
  intros t n c H. rewrite (zsum_window _ t 1 n); [ | lia | lia | lia | ].
  - rewrite (zsum_ext _ (fun _ => c)), zsum_const by (try lia; intros i Hi; replace i with 0 by lia; rewrite Z.add_0_r, Z.eqb_refl; reflexivity). ring.
  - intros i Hi N. destruct (Z.eqb_spec i t); [ lia | reflexivity ].
Qed.
Lemma bits_count : forall t, 0 <= t < 2 ^ 445 -> zsum (fun z => if (2 ^ 455 <=? z) && (z mod 2 ^ 447 / 4 =? t) then 1 else 0) (2 ^ 456) = 1024.
Proof.
  intros t Ht. replace (2 ^ 456) with (4 * 2 ^ 454) by reflexivity. rewrite zsum_mul by (discriminate || lia).
  rewrite (zsum_ext _ (fun _ => 256)); [ rewrite zsum_const by lia; reflexivity | ]. intros lo Hlo.
  replace (2 ^ 454) with (2 ^ 445 * 2 ^ 9) by reflexivity. rewrite zsum_mul by lia.
  rewrite (zsum_ext _ (fun mid => if mid =? t then 256 else 0)); [ apply zsum_point; exact Ht | ]. intros mid Hmid.
  rewrite (zsum_ext _ (fun top => if mid =? t then (if 256 <=? top then 1 else 0) else 0)).
  - destruct (mid =? t); [ | rewrite zsum_const by lia; reflexivity ]. vm_compute. reflexivity.
  - intros top Htop. assert (E : (lo + 4 * (mid + 2 ^ 445 * top)) mod 2 ^ 447 / 4 = mid).
    { replace (lo + 4 * (mid + 2 ^ 445 * top)) with (lo + 4 * mid + top * 2 ^ 447) by ring. rewrite Z.mod_add, Z.mod_small by lia.
      rewrite (Z.mul_comm 4 mid), Z.div_add, Z.div_small by lia. reflexivity. }
    rewrite E. destruct (mid =? t); [ rewrite andb_true_r | rewrite andb_false_r; reflexivity ].
    assert (L : (2 ^ 455 <=? lo + 4 * (mid + 2 ^ 445 * top)) = (256 <=? top)); [ | rewrite L; reflexivity ].
    destruct (Z.leb_spec 256 top); [ apply Z.leb_le | apply Z.leb_gt ]; lia.
Qed.
Lemma key_number : forall z, 0 <= z < 2 ^ 456 -> enc_sign (le_bytes 57 z) = (2 ^ 455 <=? z) /\ secret_scalar (le_bytes 57 z) = 2 ^ 447 + 4 * (z mod 2 ^ 447 / 4).
Proof.
  intros z Hz. assert (E : le_bytes 57 z = le_bytes 56 z ++ [(z / 2 ^ 448) mod 256]) by exact (le_bytes_snoc 56 z). rewrite E.
  split.
  - unfold enc_sign. rewrite app_nth2 by (rewrite le_bytes_length; apply Nat.le_refl). rewrite le_bytes_length, Nat.sub_diag. cbn [nth].
    assert (R : 0 <= z / 2 ^ 448 < 256) by (split; [ apply Z.div_pos; lia | apply Z.div_lt_upper_bound; lia ]). rewrite Z.mod_small by exact R.
    destruct (Z.leb_spec (2 ^ 455) z) as [ L | L ]; [ apply Z.leb_le | apply Z.leb_gt ].
    + apply Z.div_le_lower_bound; lia.
    + apply Z.div_lt_upper_bound; lia.
  - unfold secret_scalar. rewrite firstn_app, le_bytes_length, Nat.sub_diag, firstn_O, app_nil_r, firstn_all2 by (rewrite le_bytes_length; apply Nat.le_refl).
    rewrite le_val_le_bytes. change (256 ^ Z.of_nat 56) with (2 ^ 447 * 2). rewrite Z.rem_mul_r by lia.
    rewrite (Z.mul_comm (2 ^ 447) (z / 2 ^ 447 mod 2)), Z.mod_add, Z.mod_mod by discriminate. reflexivity.
Qed.
(* of the keys with the top bit set, 1024 have a given public key *)
Theorem keys_per_public : forall xof, is_xof xof -> forall pub key, length key = 57%nat -> bytes key -> ed448_derive_public xof key = Some pub ->
  tally (fun k => enc_sign k && match ed448_derive_public xof k with Some pub' => same_string pub' pub | None => false end) (strings 57) = 1024.
Proof.
  intros xof X pub key L B E. destruct (proj1 (public_keys xof X pub) (ex_intro _ key (conj L (conj B E)))) as (t & Ht & ->).
  rewrite tally_strings. change (256 ^ Z.of_nat 57) with (2 ^ 456). rewrite <- (bits_count t Ht). apply zsum_ext. intros z Hz.
  destruct (key_number z Hz) as (S1 & S2). rewrite (key_public xof X _ (le_bytes_length 57 z) (le_bytes_bytes 57 z)). unfold key_scalar. rewrite S1.
  destruct (2 ^ 455 <=? z); [ | reflexivity ]. cbn [andb]. rewrite S2.
  set (u := z mod 2 ^ 447 / 4).
  assert (Hu : 0 <= u < 2 ^ 445).
  { pose proof (Z.mod_pos_bound z (2 ^ 447) eq_refl). unfold u. split; [ apply Z.div_pos; lia | apply Z.div_lt_upper_bound; lia ]. }
  clearbody u. destruct (Z.eqb_spec u t) as [ -> | NE ].
  - rewrite (proj2 (same_string_eq _ _) eq_refl). reflexivity.
  - destruct (same_string (eencode (emul (2 ^ 447 + 4 * u) ebase)) (eencode (emul (2 ^ 447 + 4 * t) ebase))) eqn:SS; [ exfalso | reflexivity ].
    apply same_string_eq in SS. apply eencode_inj in SS; [ | apply on_B | apply on_B ]. exact (NE (scalar_t_inj u t Hu Ht SS)).
Qed.
