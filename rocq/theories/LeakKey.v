(* What an observer of the table entries read by signing or derivation learns about the private scalar. *)
From Coq Require Import ZArith List Bool Lia.
From Verif Require Import Base SpecField SpecBytes SpecScalar SpecCurve SpecDecode SpecEd448 SpecVerify SpecUniform SpecForger SpecTrace SpecLeak.
From Verif Require Import Bytes Errors ExtendedPoint Eddsa Goldilocks Lib Trace.
From Verif Require Import Field Edwards Isogeny CombMul BaseTables Order Equation Facts Sound Kernel Uniform Count Bind SmallKeys Structure Transcripts Unbias Forking Forger GameFork GameHop Complete TraceProofs LeakCount.
Import ListNotations.
Open Scope Z_scope.
Local Opaque q448 below eencode emul.

Lemma addresses_mod : forall s, table_addresses (s mod q448) = table_addresses s.
Proof.
  intro s. unfold table_addresses. f_equal. unfold comb_number. generalize ((q448 + 1) / 4) ((q448 + 1) / 2) (2 ^ 450). intros a b c.
  rewrite (Z.mod_eq s q448) by discriminate. generalize (s / q448). intro t.
  replace ((s - q448 * t) * a + c - 1) with (s * a + c - 1 + (- t * a) * q448) by ring. rewrite Z.mul_add_distr_r.
  replace (- t * a * q448 * b) with ((- t * a * b) * q448) by ring. apply Z.mod_add. discriminate.
Qed.
(* the two sums of the halves, as points *)
Lemma join : forall u v, eadd (emul (8 * u) ebase) (emul (8 * v - 4 * (2 ^ 450 - 1)) ebase) = emul (scalar_of_number (u + v)) ebase.
Proof.
  intros u v. rewrite <- emul_add by exact ebase_on. unfold scalar_of_number. rewrite emul_mod_base. f_equal. ring.
Qed.
Lemma of_scalar : forall s pub, pub = eencode (emul s ebase) -> let a := table_addresses s in
  table_addresses (s mod q448) = a /\ tally (fun r => same_string (table_addresses r) a) (below q448) <= 2 ^ 90 /\
  Z.of_nat (length (first_half a)) = 2 ^ 45 /\ Z.of_nat (length (second_half a)) = 2 ^ 45 /\
  (exists u v, In u (first_half a) /\ In v (second_half a) /\ eencode (eadd (emul (8 * u) ebase) (emul (8 * v - 4 * (2 ^ 450 - 1)) ebase)) = pub) /\
  forall u v, eencode (eadd (emul (8 * u) ebase) (emul (8 * v - 4 * (2 ^ 450 - 1)) ebase)) = pub -> scalar_of_number (u + v) = s mod q448.
Proof.
  intros s pub -> a. destruct (halves s) as (L1 & L2 & u & v & I & J & E). split; [ apply addresses_mod | ]. split; [ apply same_addresses | ]. split; [ exact L1 | ]. split; [ exact L2 | ]. split.
  - exists u, v. split; [ exact I | ]. split; [ exact J | ]. rewrite join, E, emul_mod_base. reflexivity.
  - clear. intros u v E. rewrite join in E. apply eencode_inj in E; [ | apply emul_on; exact ebase_on | apply emul_on; exact ebase_on ].
    apply base_inj in E. rewrite <- E. unfold scalar_of_number. rewrite Z.mod_mod by discriminate. reflexivity.
Qed.
Lemma split90 : forall s l, firstn 90 (table_addresses s ++ l) = table_addresses s /\ skipn 90 (table_addresses s ++ l) = l.
Proof.
  intros s l. assert (L : length (table_addresses s) = 90%nat) by (unfold table_addresses; rewrite rounds_len; reflexivity).
  split; [ rewrite <- L, firstn_app, Nat.sub_diag, firstn_all; cbn [firstn]; apply app_nil_r | rewrite <- L, skipn_app, Nat.sub_diag, skipn_all; reflexivity ].
Qed.

Section Hash.
Variable xof : list Z -> nat -> list Z.
Hypothesis XOF : is_xof xof.
Theorem derivation : forall key, length key = 57%nat -> bytes key -> exists t pub, t_ed448_derive_public xof key = Some (t, pub) /\ ed448_derive_public xof key = Some pub /\
  let a := lookups t in
  table_addresses (key_scalar xof key mod q448) = a /\ tally (fun r => same_string (table_addresses r) a) (below q448) <= 2 ^ 90 /\
  Z.of_nat (length (first_half a)) = 2 ^ 45 /\ Z.of_nat (length (second_half a)) = 2 ^ 45 /\
  (exists u v, In u (first_half a) /\ In v (second_half a) /\ eencode (eadd (emul (8 * u) ebase) (emul (8 * v - 4 * (2 ^ 450 - 1)) ebase)) = pub) /\
  forall u v, eencode (eadd (emul (8 * u) ebase) (emul (8 * v - 4 * (2 ^ 450 - 1)) ebase)) = pub -> scalar_of_number (u + v) = key_scalar xof key mod q448.
Proof.
  intros key L B. destruct (derive_lookups xof XOF key L B) as (t & pub & E & D & K). exists t, pub. split; [ exact E | ]. split; [ exact D | ]. cbv zeta. rewrite K.
  apply of_scalar. pose proof (key_public xof XOF key L B) as P. congruence.
Qed.
Theorem signing : forall key message, length key = 57%nat -> bytes key -> exists t sig pub, t_ed448_sign xof key message = Some (t, sig) /\ ed448_sign xof key message = Some sig /\ ed448_derive_public xof key = Some pub /\
  let a := firstn 90 (lookups t) in
  table_addresses (key_scalar xof key mod q448) = a /\ tally (fun r => same_string (table_addresses r) a) (below q448) <= 2 ^ 90 /\
  Z.of_nat (length (first_half a)) = 2 ^ 45 /\ Z.of_nat (length (second_half a)) = 2 ^ 45 /\
  (exists u v, In u (first_half a) /\ In v (second_half a) /\ eencode (eadd (emul (8 * u) ebase) (emul (8 * v - 4 * (2 ^ 450 - 1)) ebase)) = pub) /\
  forall u v, eencode (eadd (emul (8 * u) ebase) (emul (8 * v - 4 * (2 ^ 450 - 1)) ebase)) = pub -> scalar_of_number (u + v) = key_scalar xof key mod q448.
Proof.
  intros key message L B. destruct (sign_lookups xof XOF key message L B) as (t & sig & E & S & K). exists t, sig, (eencode (emul (key_scalar xof key) ebase)). split; [ exact E | ]. split; [ exact S | ].
  split; [ exact (key_public xof XOF key L B) | ]. cbv zeta. rewrite K. rewrite (proj1 (split90 _ _)). apply of_scalar. reflexivity.
Qed.
End Hash.

(* two scalars with the same addresses: numbers 0 and 1 + 2^18 + 2^36 + 2^54 + 2^72 *)
Definition low : Z := 181709681073901722637330951972001133588410340171829515070372549794261647685706298333667282539787388642968745390699202873740504819401143.
Definition high : Z := 181709681073901722637330951972001133588410340171829515070372549794261647685706298333667282539787388642968745390736981949719199814877631.
Theorem same_case : In low (below q448) /\ In high (below q448) /\ comb_number low = 0 /\ comb_number high = 1 + 2 ^ 18 + 2 ^ 36 + 2 ^ 54 + 2 ^ 72 /\ table_addresses low = table_addresses high.
Proof.
  split; [ apply in_below; split; [ discriminate | reflexivity ] | ]. split; [ apply in_below; split; [ discriminate | reflexivity ] | ].
  assert (E : comb_number low = 0) by (vm_compute; reflexivity). assert (F : comb_number high = 1 + 2 ^ 18 + 2 ^ 36 + 2 ^ 54 + 2 ^ 72) by (vm_compute; reflexivity).
  split; [ exact E | ]. split; [ exact F | ]. unfold table_addresses. rewrite E, F. vm_compute. reflexivity.
Qed.
