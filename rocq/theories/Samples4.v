(* Wrappers and concrete cases for the theorems of Structure.v, SmallKeys.v and Queries.v. *)
From Coq Require Import ZArith List Bool Lia.
From Verif Require Import SpecField SpecBytes SpecScalar SpecCurve SpecDecode SpecEd448 SpecVerify SpecInternal SpecUniform SpecStructure SpecProtocol SpecQueries.
From Verif Require Import Base Bytes Errors ExtendedPoint Eddsa Goldilocks.
From Verif Require Import Field Edwards Isogeny CombMul BaseTables PrimeQ Decode Torsion Ed448 Order Equation Facts Sound Kernel Uniform Witness Bind Protocol Structure SmallKeys Queries Samples Samples2 Samples3.
Import ListNotations.
Open Scope Z_scope.

Local Opaque emul eencode eadd ed448_verify ed448_sign ed448_derive_public q448 decodable denotes ebase le_bytes key4 ezero.

Theorem missing_point : forall xof, is_xof xof -> exists P, on_curve P /\ emul q448 P = ezero /\ P <> ezero /\
  forall key, length key = 57%nat -> bytes key -> ed448_derive_public xof key <> Some (eencode P).
Proof.
  intros xof X. exists ebase. split; [ exact ebase_on | ]. split; [ exact base_q | ]. split; [ exact ebase_nz | exact (base_no_key xof X) ].
Qed.
Lemma public_case : length key4 = 57%nat /\ bytes key4 /\ enc_sign key4 = true /\ ed448_derive_public xof1 key4 = Some (eencode (emul 4 ebase)).
Proof.
  destruct key4_ok as (L & B & S & V). split; [ exact L | ]. split; [ exact B | ]. split; [ exact S | ].
  assert (E : emul (4 * q448 + 4) ebase = emul 4 ebase) by (apply base_inj; rewrite Z.add_comm, Z.mod_add by exact q448_nz; reflexivity).
  rewrite (derive_public_ok xof1 xof1_xof key4 L B), S, V. cbv iota. rewrite E. reflexivity.
Qed.

Theorem group_span : forall P, on_curve P -> exists i j, 0 <= i < q448 /\ 0 <= j < 4 /\ P = eadd (emul i ebase) (emul j (fone, fzero)) /\
  forall i' j', 0 <= i' < q448 -> 0 <= j' < 4 -> P = eadd (emul i' ebase) (emul j' (fone, fzero)) -> i' = i /\ j' = j.
Proof.
  intros P C. destruct (span_all P C) as (i & j & Hi & Hj & E). exists i, j. split; [ exact Hi | ]. split; [ exact Hj | ]. split; [ exact E | ].
  intros i' j' Hi' Hj' E'. pose proof (span_inj i' j' i j Hi' Hi Hj' Hj) as K.
  assert (E2 : (i', j') = (i, j)) by (apply K; rewrite <- E; symmetry; exact E'). split; [ exact (f_equal fst E2) | exact (f_equal snd E2) ].
Qed.
Lemma log_case : exists p, bytes (eencode ebase) /\ denotes (eencode ebase) ebase /\ eddsa_like_decode (eencode ebase) = Some (Ok p) /\ on_curve point2 /\
  on_curve (eadd ebase point2).
Proof.
  destruct (encode_decode_gen (eencode ebase) ebase (eencode_bytes ebase) base_decodable base_denotes) as (p & D & _). exists p.
  split; [ apply eencode_bytes | ]. split; [ exact base_denotes | ]. split; [ exact D | ]. split; [ exact point2_on | apply eadd_on; [ exact ebase_on | exact point2_on ] ].
Qed.

(* a public key of order 4 *)
Lemma small_case : In (repeat 0 56 ++ [128]) small_encodings /\ repeat 0 56 ++ [128] <> repeat 0 57 /\ bytes (repeat 0 56 ++ [128]) /\
  ~ In (eencode ebase) small_encodings.
Proof.
  assert (I : In (repeat 0 56 ++ [128]) small_encodings).
  { apply small_list. exists 0, 128. split; [ left; reflexivity | ]. split; [ right; left; reflexivity | ]. vm_compute. reflexivity. }
  split; [ exact I | ]. split; [ intro E; apply (f_equal (fun l => nth 56 l 0)) in E; discriminate E | ]. split; [ exact (proj1 (small_all _ I)) | ].
  intro J. destruct (small_all _ J) as (B & D & A & N & Z0).
  destruct (encode_decode_gen _ A B D N) as (p & Dp & E1). destruct (encode_decode_gen _ ebase B D base_denotes) as (p' & Dp' & E2).
  rewrite Dp in Dp'. apply some_inj in Dp'. injection Dp' as <-. rewrite E1 in E2. apply some_inj in E2.
  rewrite (four_subgroup A (proj1 N) Z0) in E2. apply eencode_inj in E2; [ | exact ezero_on | exact (emul_on (q448 + 1) ebase ebase_on) ].
  exact (base_part (eq_sym E2)).
Qed.

(* the hash function changed at the one-byte string 7, which none of the operations hashes *)
Definition xof7 : list Z -> nat -> list Z := programmed xof1 [7] (le_bytes 114 5).
Lemma xof7_xof : is_xof xof7.
Proof. apply programmed_xof; [ exact xof1_xof | apply le_bytes_bytes ]. Qed.
Lemma xof7_agree : forall inputs, (forall x, In x inputs -> (2 <= length x)%nat) -> agree xof1 xof7 inputs.
Proof.
  intros inputs L x I. unfold xof7. symmetry. apply programmed_else. intro E. pose proof (L x I) as K. rewrite E in K. cbn in K. lia.
Qed.
Lemma xof7_other : xof1 [7] 114%nat <> xof7 [7] 114%nat.
Proof.
  unfold xof7. rewrite programmed_at by apply le_bytes_length. intro E. apply (f_equal le_val) in E. rewrite le_val_le_bytes in E.
  revert E. apply Z.eqb_neq. vm_compute. reflexivity.
Qed.
Lemma dom_len : forall l, (2 <= length (rfc_dom ++ l))%nat.
Proof. intro l. rewrite app_length. cbn. lia. Qed.
Lemma queries_case : is_xof xof1 /\ is_xof xof7 /\ xof1 [7] 114%nat <> xof7 [7] 114%nat /\ length seed = 57%nat /\ bytes seed /\ enc_sign seed = false /\
  length key4 = 57%nat /\ bytes key4 /\ enc_sign key4 = true /\ bytes (eencode ebase) /\ denotes (eencode ebase) ebase /\ forall message,
  agree xof1 xof7 (derive_inputs seed) /\ agree xof1 xof7 (sign_inputs xof1 seed message) /\ agree xof1 xof7 (sign_inputs xof1 key4 message) /\
  agree xof1 xof7 (verify_inputs ebase sig2 message).
Proof.
  destruct key4_ok as (L4 & B4 & S4 & _). destruct seed_ok as (LS & BS & SS).
  split; [ exact xof1_xof | ]. split; [ exact xof7_xof | ]. split; [ exact xof7_other | ]. split; [ exact LS | ]. split; [ exact BS | ]. split; [ exact SS | ].
  split; [ exact L4 | ]. split; [ exact B4 | ]. split; [ exact S4 | ]. split; [ apply eencode_bytes | ]. split; [ exact base_denotes | ]. intro message.
  assert (DS : forall x, In x (derive_inputs seed) -> (2 <= length x)%nat).
  { unfold derive_inputs. rewrite SS. intros x [ <- | [] ]. rewrite LS. lia. }
  assert (SI : forall key, (forall x, In x (derive_inputs key) -> (2 <= length x)%nat) -> forall x, In x (sign_inputs xof1 key message) -> (2 <= length x)%nat).
  { intros key HK x I. unfold sign_inputs in I. apply in_app_iff in I. destruct I as [ I | [ <- | [ <- | [] ] ] ]; [ exact (HK x I) | apply dom_len | apply dom_len ]. }
  split; [ apply xof7_agree; exact DS | ]. split; [ apply xof7_agree, SI; exact DS | ]. split; [ apply xof7_agree, SI | apply xof7_agree ].
  - unfold derive_inputs. rewrite S4. intros x [].
  - intros x [ <- | [] ]. apply dom_len.
Qed.

Lemma linear_case : bytes (eencode ebase) /\ bytes sig2 /\ length sig2 = 114%nat /\ ~ zero_input (eencode ebase) sig2 /\ decodable (eencode ebase) /\
  decodable (firstn 57 sig2) /\ denotes (eencode ebase) ebase /\ denotes (firstn 57 sig2) ebase /\ firstn 57 sig2 <> repeat 0 57 /\
  forall message, ed448_verify xof1 (eencode ebase) sig2 message = Some (Ok true).
Proof.
  destruct sig2_ok as (B & L & F1 & F2). split; [ apply eencode_bytes | ]. split; [ exact B | ]. split; [ exact L | ].
  split; [ intros [ K | K ]; [ exact (base_not_zero K) | exact (sig2_nz K) ] | ]. split; [ exact base_decodable | ].
  rewrite F1. split; [ exact base_decodable | ]. split; [ exact base_denotes | ]. split; [ exact base_denotes | ]. split; [ exact base_not_zero | exact sig2_accepted ].
Qed.
Lemma collision_case : bytes (eencode ebase) /\ denotes (eencode ebase) ebase /\ forall m m',
  rfc_challenge xof1 (firstn 57 sig2) (eencode (subgroup_part ebase)) m mod q448 = rfc_challenge xof1 (firstn 57 sig2) (eencode (subgroup_part ebase)) m' mod q448.
Proof. split; [ apply eencode_bytes | ]. split; [ exact base_denotes | ]. intros m m'. unfold rfc_challenge, xof1. reflexivity. Qed.
