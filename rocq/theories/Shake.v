(* SHAKE256 meets what is_xof asks of the hash. *)
From Coq Require Import ZArith List Bool Lia.
From Verif Require Import SpecBytes SpecEd448 SpecShake.
Import ListNotations.
Open Scope Z_scope.

Lemma round_length : forall a rc, length (round a rc) = 25%nat.
Proof. intros a rc. reflexivity. Qed.
Lemma keccak_length : forall a, length (keccak_f a) = 25%nat.
Proof.
  intro a. unfold keccak_f. change rcs with (firstn 23 rcs ++ [0x8000000080008008]). rewrite fold_left_app. cbn [fold_left]. apply round_length.
Qed.
Lemma absorb_length : forall fuel st b, length st = 25%nat -> length (absorb fuel st b) = 25%nat.
Proof.
  induction fuel as [|f IH]; intros st b H; [ exact H | ]. cbn [absorb]. destruct (Nat.ltb (length b) rate).
  - apply keccak_length.
  - apply IH. apply keccak_length.
Qed.
Lemma bytes8_ok : forall n z, length (bytes8 n z) = n /\ bytes (bytes8 n z).
Proof.
  induction n as [|n IH]; intro z; [ split; [ reflexivity | constructor ] | ]. cbn [bytes8 length]. destruct (IH (Z.shiftr z 8)) as (L & B).
  split; [ rewrite L; reflexivity | ]. constructor; [ | exact B ].
  change 255 with (Z.ones 8). rewrite Z.land_ones by lia. unfold byte. change 256 with (2 ^ 8). apply Z.mod_pos_bound. reflexivity.
Qed.
Lemma block_ok : forall l, length (flat_map (bytes8 8) l) = (8 * length l)%nat /\ bytes (flat_map (bytes8 8) l).
Proof.
  induction l as [|x l (L & B)]; [ split; [ reflexivity | constructor ] | ]. cbn [flat_map]. destruct (bytes8_ok 8 x) as (L' & B').
  split; [ rewrite app_length, L', L; cbn [length]; lia | apply Forall_app; split; assumption ].
Qed.
Lemma squeeze_ok : forall fuel st, length st = 25%nat -> length (squeeze fuel st) = (rate * fuel)%nat /\ bytes (squeeze fuel st).
Proof.
  induction fuel as [|f IH]; intros st H; [ split; [ reflexivity | constructor ] | ]. cbn [squeeze].
  destruct (block_ok (firstn 17 st)) as (L & B). destruct (IH (keccak_f st) (keccak_length st)) as (L' & B'). split.
  - rewrite app_length, L, L', firstn_length, H. unfold rate. change (Nat.min 17 25) with 17%nat. lia.
  - apply Forall_app. split; assumption.
Qed.
Lemma squeeze_more : forall fuel k st, exists t, squeeze (fuel + k) st = squeeze fuel st ++ t.
Proof.
  induction fuel as [|f IH]; intros k st; [ exists (squeeze k st); reflexivity | ]. cbn [squeeze Nat.add].
  destruct (IH k (keccak_f st)) as (t & ->). exists t. rewrite app_assoc. reflexivity.
Qed.
Lemma enough : forall n, (n <= rate * S (n / rate))%nat.
Proof. intro n. pose proof (Nat.div_mod n rate ltac:(discriminate)) as D. pose proof (Nat.mod_upper_bound n rate ltac:(discriminate)). lia. Qed.
Theorem shake256_xof : is_xof shake256.
Proof.
  intro x. unfold shake256. set (st := absorb _ _ _).
  assert (ST : length st = 25%nat) by (apply absorb_length; reflexivity). clearbody st. split.
  - intro n. destruct (squeeze_ok (S (n / rate)) st ST) as (L & B). split.
    + rewrite firstn_length, L. pose proof (enough n). lia.
    + apply Forall_forall. intros b Hb. pose proof (proj1 (Forall_forall byte _) B) as B1. apply B1. rewrite <- (firstn_skipn n). apply in_or_app. left. exact Hb.
  - intros n n' H. rewrite firstn_firstn, Nat.min_l by exact H.
    assert (Q : (n / rate <= n' / rate)%nat) by (apply Nat.div_le_mono; [ discriminate | exact H ]).
    destruct (squeeze_more (S (n / rate)) (n' / rate - n / rate) st) as (t & E).
    replace (S (n' / rate)) with (S (n / rate) + (n' / rate - n / rate))%nat by lia. rewrite E, firstn_app.
    destruct (squeeze_ok (S (n / rate)) st ST) as (L & _). rewrite L.
    replace (n - rate * S (n / rate))%nat with 0%nat by (pose proof (enough n); lia). rewrite firstn_O, app_nil_r. reflexivity.
Qed.
