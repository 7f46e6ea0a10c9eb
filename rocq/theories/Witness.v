(* Concrete keys, signatures and encodings that refute what one would expect of the functions. *)
From Coq Require Import ZArith List Bool Lia Znumtheory Ring.
From Verif Require Import SpecField SpecBytes SpecScalar SpecCurve SpecDecode SpecEd448 SpecVerify Base Arith Bytes Constants32 BigNumber ScalarModel
  Niels Errors ExtendedPoint Eddsa Goldilocks Lib.
From Verif Require Import LimbMul LimbOps LimbOps2 Field FieldOps ScalarProofs Edwards Isogeny PointOps PointMul CombMul FastF BaseTables Recode DoubleMul Decode Total Ed448 Verify Order Equation Facts.
Import ListNotations.
Open Scope Z_scope.

Lemma low_zero_mkF : forall z, low_zero (mkF z) = (z mod p448 mod 2 ^ 420 =? 0).
Proof. intro z. unfold low_zero. rewrite fval_mkF. reflexivity. Qed.

(* 1. a secret key in expanded form whose public key the decoder refuses.  The points lead from
   2^446 B to the public key; they are checked below. *)
Definition bad_scalar : Z := 2 ^ 447 + 4 * 13135779332.
Definition bad_key : list Z := le_bytes 56 bad_scalar ++ [128].
Definition bad_hints : list (bool * nat * zpt) :=
  [ ((true, 446%nat), (0x5a130ee789ed89f05309a6a4fe9546f9e407637b59f5a25ebbe4b545870970179d29756849fbc9fb494f187f08b838cd834481ec5602396c, 0xf51274f1d43337067b931bb98ac4e1f876d3000f20d913374c8d576a9cb7b9d1616eb3e3e97b8fa58712402485c1949247ca4c20265a5894))
  ; ((true, 35%nat), (0xf8b73b479e41306729a48c8d35ae048117c2f8b2f8d7b6546f57cadd6f7fa9d375689e18329a51eb09788a707ce55a161071b9df74094b1c, 0x41a09799622115d60c54d010ecbf878f192c69a8c1ef8146b277e12cbd76a2ea55895abe01a75ec2a6e5c2ff7828d99a954ef8f8a2a4e92a))
  ; ((true, 34%nat), (0xe7e260cbefb6a33f609691e713a288d91c6e90234c221dc7e57e3557e68f21b07b519435a1ade0ebd30746018b332a791923766e5f43cbb8, 0x489175962b49d7f8438323ed5beb983832829e77f14ad5228a3cc00cfa3922d01db678e7f73947d82368f500d33ed067244e9c95a6affc9e))
  ; ((true, 29%nat), (0x5e01b2445c0aa20426aea0add5ec642a1fdf6ff20e208e5a88a99b8253dffa3e9c85cef9cbd6551509289abb16fd1adafdd48ed0055692c1, 0x7cbe8ffabd44f306ce303ae0dd6b9feb3de744852d59c8051c50542043321c45fda50087fd92d466b27ea20535400b153db97d464023bdc6))
  ; ((true, 28%nat), (0xd968d653348254df36aa55b78cb6d28a0d512a6425a9cb49085c3add2baa60837965d4e753caa9af53c3944bfac0e42916650863f3be370b, 0x918887928f125394c7ffb8b0fe05de1a2c2e2b538c0cc415b3a0aa6a7619e23aa35c3d583e909cccc9ca3ea93fffaa28ccc06a880a71462c))
  ; ((true, 27%nat), (0x15c48da7639e3367bd6b4e60c2483dd636a8934ba8a9ae0591dddb2f7581ae6d33a1f396b344949b200766410c1fb2cbb118d6a8589fdde0, 0x2b2fefbfbea8d5d516ad03e055fea08f085d30e359a8d7fa6b34a3a1bc3b1ec5a390a5ec3b4b62272685ceca89ca787da4d4140b0813551e))
  ; ((true, 25%nat), (0x1d0597f172d04a8bb8c1f5b471eb537d9cedacaebc7162ed6490ed41370e464ce8fff5523a1a174a2d583013e0a122fdaf7f5b0ca5398046, 0x4c6aff8f527d285dda063e6a6c75bbdca45c638c6f460ae1a2265fdbdb7f4b1250ca955d3385e8c32842643dd0b121a66500865424a62630))
  ; ((true, 24%nat), (0x49b49060055582bb9caf1472dc15ff14e793009a19f7b4d27676498745765f012baa0bb13b2905fdc4f1ac380dd0dfe5fef3dfcb16ae2530, 0xd7dfc376d7666042d91b35c76877b856c006dec3a10210aaaaada02622459e428a3b406cac986576df4d81444fdba5427daa43f29c41c24e))
  ; ((true, 23%nat), (0x56decf459fb77aa5f043713acb85aa9d03779ccaa3bb6668f209d7594e911b680b4f8f2b42f1586aa3d7ebeaf4d9b5034dd84a22385d61ac, 0xe7115dbcb84f363374f54cb4a6a11d86809361633ef1f413fc2a98466eceaa4ce275cb20a0c7e4d270e0a60497ef917c355d4cd380c32c7b))
  ; ((true, 22%nat), (0xc21707d54c36ff578ca2f585265e81c3d0bbb03a690ba725160839a4289136d4d932fc014a2f5a2ae326cfb63c7b814ed9f509028357873a, 0x8a2bd5be69fa23ebbb1b99cfe153cc4531cce62b059b1942851eb12045de8105af056008f3cc8e5d4f40335e0c23ff22819e8724d6259958))
  ; ((true, 20%nat), (0xaf451fa6360891d5cf3c2a792348d801feb5d391d50258822d8c8b3207365136729cbdacd64f16f461e3ae147f776ab2089e22ec36887ee0, 0x5c362a6c082068982a3f6233b8aba2092ad8bc0e0e48e38a0857346a6f029082fa697214b532b6e719a9bbd5d955a62f871efb358eee248d))
  ; ((true, 14%nat), (0x3769f9ad037d2a60508e1b234ce0a7ec3577f0e2459ada7a7dbb740e99ddce0944677b3d3ad1f3eaad199b5b6ffb823073d00baff2d69c2b, 0x1278d2f4afd42bb82eb877964670c8411e9df2945a014a61ccce04ec5ced9a50d68782926873f98a6a4772bd477017d69391beddb9e9f2fb))
  ; ((true, 12%nat), (0x3f0bf11ca0f7e6b61872aed96590ce66ca8d6c657c6e52ba13b28088adba0ba83dc254528ec46f8d6833899014378a0aa4ec83bdfeef86f4, 0x83bbf05a76fc5f33dbad0061fef0189b56b43fabc557f5c73b7ee2ec3141db0d914a3fa88be2443583815cfb4a5cb20d83138430876b10b1))
  ; ((true, 11%nat), (0xb16e071ecbea1aa8470968274345f57f8fbfd593b442f9b1cc1bbf03f14fca7f20b19bc65e526878203a22890d657ed7c346907324a3a31, 0x3740a41ab75ee49ec23a3af209b4f44ca5f1cf649ab3b44f63ae293861076de6912a8fa0d22e0ea431657ff6ce4f5770d7634c5e6fa4d421))
  ; ((true, 4%nat), (0x79625b365ce72780e5c3740fc68eb7519d2892b3a2eccc088e2cfbd6bf4f3f2cb2f4097e229220d07222d666141e6b3584df05ae680b4462, 0x1c0b17534fa8f6450762f7eb3aeaa2b1e1d6502ec2ec83368eb0c618d94ca33937cd6184c30850423d03ae14bb92c94871b92c6717b)) ].
Definition bad_point : zpt := (0x79625b365ce72780e5c3740fc68eb7519d2892b3a2eccc088e2cfbd6bf4f3f2cb2f4097e229220d07222d666141e6b3584df05ae680b4462, 0x1c0b17534fa8f6450762f7eb3aeaa2b1e1d6502ec2ec83368eb0c618d94ca33937cd6184c30850423d03ae14bb92c94871b92c6717b).
Lemma bad_walk_ok : walk_check 446 bad_hints = true.
Proof. vm_cast_no_check (eq_refl true). Qed.
Lemma bad_find_ok : zfind bad_scalar (walk_points 446 bad_hints) = Some bad_point.
Proof. vm_cast_no_check (eq_refl (Some bad_point)). Qed.
Lemma bad_public : emul bad_scalar ebase = zF bad_point.
Proof. symmetry. exact (zfind_ok ebase _ _ _ (walk_points_ok _ _ bad_walk_ok) bad_find_ok). Qed.
Lemma bad_range : range_test (snd bad_point mod p448) = false.
Proof. vm_compute. reflexivity. Qed.
Lemma bad_key_len : length bad_key = 57%nat.
Proof. reflexivity. Qed.
Lemma bad_key_bytes : bytes bad_key.
Proof. unfold bad_key. apply bytes_app. split; [ apply le_bytes_bytes | repeat constructor; lia ]. Qed.
Lemma bad_key_sign : enc_sign bad_key = true.
Proof. vm_compute. reflexivity. Qed.
Lemma bad_key_scalar : secret_scalar bad_key = bad_scalar.
Proof. vm_compute. reflexivity. Qed.
Lemma bad_undecodable : ~ decodable (eencode (emul bad_scalar ebase)).
Proof.
  intro D. apply decodable_eencode in D; [ | apply emul_on; exact ebase_on ]. destruct D as (D & _). rewrite bad_public in D.
  unfold zF in D. cbn [snd] in D. rewrite fval_mkF, bad_range in D. discriminate D.
Qed.
Theorem derived_key_undecodable : forall xof, is_xof xof -> exists pub,
  ed448_derive_public xof bad_key = Some pub /\ eddsa_like_decode pub = Some (Err DecodeError).
Proof.
  intros xof XOF. exists (eencode (emul bad_scalar ebase)). split.
  - rewrite derive_public_ok, bad_key_sign, bad_key_scalar by (exact XOF || exact bad_key_len || exact bad_key_bytes). reflexivity.
  - apply decode_bad; [ apply eencode_len | apply eencode_bytes | exact bad_undecodable ].
Qed.
Theorem honest_signature_refused : forall xof, is_xof xof -> forall message, exists pub sig,
  ed448_derive_public xof bad_key = Some pub /\ ed448_sign xof bad_key message = Some sig /\
  ed448_verify xof pub sig message = Some (Err DecodePubkeyError).
Proof.
  intros xof XOF message. exists (eencode (emul bad_scalar ebase)).
  destruct (sign_total xof XOF bad_key message bad_key_len bad_key_bytes) as (sig & E). exists sig.
  destruct (sign_canonical xof XOF bad_key message sig bad_key_len bad_key_bytes E) as (L & B & _).
  split; [ | split; [ exact E | ] ].
  - rewrite derive_public_ok, bad_key_sign, bad_key_scalar by (exact XOF || exact bad_key_len || exact bad_key_bytes). reflexivity.
  - apply (verify_errors xof XOF _ sig message (eencode_bytes _) B). split; [ | split; [ apply eencode_len | exact bad_undecodable ] ].
    intros [Z|Z].
    + exact (eencode_not_zero bad_scalar Z).
    + rewrite sign_ok, bad_key_sign in E by (exact XOF || exact bad_key_len || exact bad_key_bytes).
      apply some_inj in E. rewrite Z in E. unfold rfc_sign_with in E. cbv zeta in E.
      apply (f_equal (firstn 57)) in E. rewrite firstn_app, eencode_len, Nat.sub_diag, firstn_O, app_nil_r in E.
      rewrite firstn_all2 in E by (rewrite eencode_len; apply Nat.le_refl). exact (eencode_not_zero _ E).
Qed.
Theorem curve_point_refused : exists P, on_curve P /\ eddsa_like_decode (eencode P) = Some (Err DecodeError).
Proof.
  exists (emul bad_scalar ebase). split; [ apply emul_on; exact ebase_on | ].
  apply decode_bad; [ apply eencode_len | apply eencode_bytes | exact bad_undecodable ].
Qed.

(* 2. a point of the curve refused although it passes the range test: its projective denominator is 3 * 2^420 *)
Definition flat_x : Z := 0x15a044dc7c76c840829c46a084ce402b992cd916b2d081e58fe608ffc0f234d3ff8fcf4be9a44413d4aece3210254cb5a50b29e7e29a0f6b.
Definition flat_y : Z := 0x19dcbec0c0f1d284fe32e1fbf85ebfc2a5b8e61acfd18eb968eacdd6a323878555ef83f0024e04833879705615670480ef893ba67aa713e8.
Lemma on_curve_mkF : forall x y, (x * x + y * y - (1 - 39081 * (x * x * (y * y)))) mod p448 = 0 -> on_curve (mkF x, mkF y).
Proof.
  intros x y H. unfold on_curve. apply fsub_zero. rewrite ecd_val. change fone with (mkF 1). rewrite <- !mkF_mul, <- !mkF_add, <- mkF_sub. change fzero with (mkF 0). apply mkF_eq.
  rewrite Z.mod_0_l by discriminate. rewrite <- H. f_equal. ring.
Qed.
Lemma denominator_mkF : forall x y, denominator (mkF x) (mkF y) = mkF ((y * y - x * x) * (2 - (x * x + y * y))).
Proof. intros x y. unfold denominator. rewrite <- !mkF_mul, <- mkF_add, <- !mkF_sub, <- mkF_mul. reflexivity. Qed.
Lemma residue_mkF : forall x y, residue (mkF x) (mkF y) =
  mkF (4 * ((x * x + y * y) * (x * x + y * y)) * (x * x + y * y - 1 - -39081 * (x * x * (y * y)))).
Proof.
  intros x y. unfold residue. cbv zeta. rewrite ecd_val. change fone with (mkF 1). rewrite <- !mkF_mul, <- !mkF_add, <- !mkF_mul, <- !mkF_sub, <- mkF_mul.
  reflexivity.
Qed.
Theorem curve_point_refused_z : on_curve (mkF flat_x, mkF flat_y) /\ range_test flat_y = true /\
  eddsa_like_decode (eencode (mkF flat_x, mkF flat_y)) = Some (Err DecodeError).
Proof.
  assert (C : on_curve (mkF flat_x, mkF flat_y)) by (apply on_curve_mkF; vm_compute; reflexivity).
  split; [ exact C | ]. split; [ vm_compute; reflexivity | ].
  apply decode_bad; [ apply eencode_len | apply eencode_bytes | ]. intro D. apply decodable_eencode in D; [ | exact C ].
  destruct D as (_ & D). cbn [fst snd] in D. rewrite denominator_mkF, low_zero_mkF in D. vm_compute in D. discriminate D.
Qed.

(* 3. a string accepted although no point of the curve has its y: the residue is 4 * 2^420 *)
Definition off_x : Z := 0xa105cf7ee8b7edcbda4ce1afdafe0828eac09ea50ffc6d446eac61312314c8778c96f1db098bf5de1525f9a67b0209d194818609230b169b.
Definition off_y : Z := 0x956e1958aac0e4ca8bcd641ea138752d173b29321fdc9b3a0d96ea9e9c098499f6985b0dc9f26bfd7a33f2eed82214fe797e4af153f1c61d.
Definition off_src : list Z := le_bytes 56 off_y ++ [128].
Lemma off_fields : enc_y off_src = off_y /\ enc_sign off_src = true /\ enc_pad_ok off_src = true.
Proof. vm_compute. auto. Qed.
Lemma off_candidate : fmul (fmul (mkF off_x) (mkF off_x)) (fsub fone (fmul ecd (fmul (mkF off_y) (mkF off_y)))) =
  fopp (fsub fone (fmul (mkF off_y) (mkF off_y))).
Proof.
  rewrite ecd_val. change fone with (mkF 1). rewrite <- !mkF_mul, <- !mkF_sub, <- mkF_mul, <- mkF_opp. apply mkF_eq. vm_compute. reflexivity.
Qed.
Lemma off_not_curve : forall x, ~ on_curve (x, mkF off_y).
Proof.
  intros x H. apply curve_uv in H. pose proof off_candidate as C. fold (dv (mkF off_y)) in C. fold (du (mkF off_y)) in C.
  assert (K : fadd (fmul x x) (fmul (mkF off_x) (mkF off_x)) = fzero).
  { pose proof (dv_nz (mkF off_y)) as N.
    assert (E : fmul (fadd (fmul x x) (fmul (mkF off_x) (mkF off_x))) (dv (mkF off_y)) = fzero).
    { transitivity (fadd (fmul (fmul x x) (dv (mkF off_y))) (fmul (fmul (mkF off_x) (mkF off_x)) (dv (mkF off_y)))); [ ring | ]. rewrite H, C. ring. }
    apply fmul_zero in E. destruct E as [E|E]; [ exact E | contradiction ]. }
  destruct (sum_squares_zero _ _ K) as (_ & Z). change fzero with (mkF 0) in Z. apply mkF_eq in Z. vm_compute in Z. discriminate Z.
Qed.
Lemma off_decodable : decodable off_src.
Proof.
  destruct off_fields as (E1 & E2 & E3). split; [ reflexivity | ]. split; [ exact E3 | ]. rewrite E1, E2.
  split; [ vm_compute; reflexivity | ]. exists (mkF off_x). split; [ split; [ right; exact off_candidate | ] | split ].
  - intros _. rewrite fval_mkF. vm_compute. reflexivity.
  - rewrite residue_mkF, low_zero_mkF. vm_compute. reflexivity.
  - rewrite denominator_mkF, low_zero_mkF. vm_compute. reflexivity.
Qed.
Theorem off_curve_accepted : (exists p, eddsa_like_decode off_src = Some (Ok p)) /\ enc_y off_src < p448 /\ forall P, ~ denotes off_src P.
Proof.
  split; [ | split ].
  - destruct (decode_good off_src) as (p & E & _).
    + unfold off_src. apply bytes_app. split; [ apply le_bytes_bytes | repeat constructor; lia ].
    + exact off_decodable.
    + exists p. exact E.
  - rewrite (proj1 off_fields). vm_compute. reflexivity.
  - intros (x, y) (H & Hy & _). cbn [snd] in Hy. rewrite (proj1 off_fields) in Hy. subst y. exact (off_not_curve x H).
Qed.

(* 4. the neutral element *)
Definition one_enc : list Z := 1 :: repeat 0 56.
Definition one_neg : list Z := 1 :: repeat 0 55 ++ [128].
Definition one_big : list Z := le_bytes 56 (p448 + 1) ++ [0].
Lemma one_enc_ok : eencode ezero = one_enc.
Proof. Transparent ezero. unfold eencode, ezero. rewrite fval_fone. change fzero with (mkF 0). rewrite fval_mkF. vm_compute. reflexivity. Qed.
Opaque ezero.
Lemma one_bytes : bytes one_enc /\ bytes one_neg /\ bytes one_big.
Proof.
  split; [ | split ].
  - repeat (constructor; [ unfold byte; lia | ]). constructor.
  - repeat (constructor; [ unfold byte; lia | ]). constructor.
  - unfold one_big. apply bytes_app. split; [ apply le_bytes_bytes | repeat constructor; lia ].
Qed.
Lemma one_denom : low_zero (denominator (fst ezero) (snd ezero)) = false.
Proof.
  Transparent ezero. unfold ezero, fst, snd. change fzero with (mkF 0). change fone with (mkF 1). rewrite denominator_mkF, low_zero_mkF.
  vm_compute. reflexivity.
Qed.
Lemma zero_denotes : forall src, enc_y src mod p448 = 1 -> denotes src ezero.
Proof.
  intros src E. split; [ exact ezero_on | ]. unfold ezero, fst, snd. split; [ | intro C; exfalso; exact (C eq_refl) ].
  change fone with (mkF 1). apply mkF_eq. rewrite E. reflexivity.
Qed.
Opaque ezero.
Lemma one_denotes : denotes one_enc ezero /\ denotes one_neg ezero /\ denotes one_big ezero.
Proof. split; [ | split ]; apply zero_denotes; vm_compute; reflexivity. Qed.
Lemma one_decodable : decodable one_enc /\ decodable one_neg /\ decodable one_big.
Proof.
  destruct one_denotes as (N1 & N2 & N3).
  split; [ | split ]; (eapply decodable_denotes; [ reflexivity | vm_compute; reflexivity | eassumption | split; [ vm_compute; reflexivity | exact one_denom ] ]).
Qed.
(* one point with three accepted encodings: sign bit set for x = 0, and y + p for y *)
Theorem three_encodings : one_enc <> one_neg /\ one_enc <> one_big /\ one_neg <> one_big /\
  decodable one_enc /\ decodable one_neg /\ decodable one_big /\
  denotes one_enc ezero /\ denotes one_neg ezero /\ denotes one_big ezero.
Proof.
  destruct one_decodable as (D1 & D2 & D3). destruct one_denotes as (N1 & N2 & N3).
  repeat (split; [ first [ assumption | intro E; vm_compute in E; discriminate E ] | ]). assumption.
Qed.
(* a clamped secret that is a multiple of q *)
Definition zero_key : list Z := le_bytes 56 (4 * q448) ++ [128].
Theorem identity_public_key : forall xof, is_xof xof ->
  length zero_key = 57%nat /\ bytes zero_key /\ ed448_derive_public xof zero_key = Some (eencode ezero).
Proof.
  intros xof XOF. assert (L : length zero_key = 57%nat) by reflexivity.
  assert (B : bytes zero_key) by (unfold zero_key; apply bytes_app; split; [ apply le_bytes_bytes | repeat constructor; lia ]).
  assert (S : enc_sign zero_key = true) by (vm_compute; reflexivity).
  assert (V : secret_scalar zero_key = 4 * q448) by (vm_compute; reflexivity).
  split; [ exact L | ]. split; [ exact B | ]. rewrite derive_public_ok, S, V by assumption.
  rewrite emul_mul, order_ok, emul_ezero by exact ebase_on. reflexivity.
Qed.
Definition forged : list Z := one_enc ++ repeat 0 57.
Lemma forged_bytes : bytes forged.
Proof. repeat (constructor; [ unfold byte; lia | ]). constructor. Qed.
Lemma forged_nz : ~ zero_input one_enc forged.
Proof. intros [E|E]; vm_compute in E; discriminate E. Qed.
Lemma zero_equation : forall k, rfc_equation 0 ezero k ezero.
Proof. intro k. unfold rfc_equation. rewrite !emul_ezero, eadd_0_l. apply emul_0. Qed.
Lemma forged_R : firstn 57 forged = one_enc.
Proof. reflexivity. Qed.
Lemma forged_S : le_val (firstn 57 (skipn 57 forged)) = 0.
Proof. reflexivity. Qed.
Lemma forged_len : length forged = 114%nat.
Proof. reflexivity. Qed.
Lemma verify_dsa : forall xof pub sig message, ~ zero_input pub sig -> ed448_verify xof pub sig message = dsa_verify xof pub sig message.
Proof.
  intros xof pub sig message N. unfold ed448_verify. destruct (bytes_eqb pub zero_public_key || bytes_eqb sig zero_signature) eqn:Z; [ | reflexivity ].
  exfalso. apply N. apply zero_input_dec. exact Z.
Qed.
Theorem identity_key_forgery : forall xof, is_xof xof -> forall message, ed448_verify xof one_enc forged message = Some (Ok true).
Proof.
  intros xof XOF message. apply (verify_accepts xof XOF one_enc forged message ezero ezero (proj1 one_bytes) forged_bytes).
  - rewrite forged_len. apply Nat.le_refl.
  - exact forged_nz.
  - exact (proj1 one_decodable).
  - rewrite forged_R. exact (proj1 one_decodable).
  - exact (proj1 one_denotes).
  - rewrite forged_R. exact (proj1 one_denotes).
  - rewrite forged_S. apply zero_equation.
Qed.
Lemma forged_dsa : forall xof, is_xof xof -> forall message, dsa_verify xof one_enc forged message = Some (Ok true).
Proof. intros xof XOF message. rewrite <- (verify_dsa xof one_enc forged message forged_nz). apply identity_key_forgery. exact XOF. Qed.
Definition forged_q : list Z := one_enc ++ le_bytes 57 q448.
Lemma forged_q_facts : bytes forged_q /\ length forged_q = 114%nat /\ firstn 57 forged_q = one_enc /\
  le_val (firstn 57 (skipn 57 forged_q)) mod q448 = 0 /\ forged_q <> repeat 0 114 /\ forged <> forged_q.
Proof.
  split; [ unfold forged_q; apply bytes_app; split; [ apply one_bytes | apply le_bytes_bytes ] | ].
  split; [ reflexivity | ]. split; [ reflexivity | ]. split; [ vm_compute; reflexivity | ]. split; intro E; vm_compute in E; discriminate E.
Qed.
Lemma forged_not_zero : forged <> repeat 0 114.
Proof. intro E; vm_compute in E; discriminate E. Qed.
Theorem malleable : forall xof, is_xof xof -> forall message,
  forged <> forged_q /\ firstn 57 forged = firstn 57 forged_q /\
  ed448_verify xof one_enc forged message = Some (Ok true) /\ ed448_verify xof one_enc forged_q message = Some (Ok true).
Proof.
  intros xof XOF message. destruct forged_q_facts as (B & L & R & S & N & D).
  assert (V : ed448_verify xof one_enc forged message = Some (Ok true)) by (apply identity_key_forgery; exact XOF).
  split; [ exact D | ]. split; [ rewrite R; exact forged_R | ]. split; [ exact V | ]. rewrite <- V. symmetry.
  apply (verify_S xof one_enc forged forged_q message forged_bytes B).
  - rewrite forged_len. apply Nat.le_refl.
  - rewrite L. apply Nat.le_refl.
  - exact forged_not_zero.
  - exact N.
  - rewrite R. exact forged_R.
  - rewrite S, forged_S. reflexivity.
Qed.
Lemma short_facts : length (firstn 113 forged) = 113%nat /\ ~ zero_input one_enc (firstn 113 forged).
Proof. split; [ reflexivity | ]. intros [E|E]; vm_compute in E; discriminate E. Qed.
Theorem short_signature_panics : forall xof, is_xof xof -> forall message,
  length (firstn 113 forged) = 113%nat /\ ed448_verify xof one_enc (firstn 113 forged) message = None.
Proof.
  intros xof XOF message. destruct short_facts as (L & N). split; [ exact L | ].
  apply (verify_errors xof XOF one_enc (firstn 113 forged) message (proj1 one_bytes) (bytes_firstn _ _ forged_bytes)).
  split; [ exact N | ]. split; [ exact (proj1 one_decodable) | ]. rewrite L. apply Nat.ltb_lt. reflexivity.
Qed.
Lemma one_not_zero : one_enc <> repeat 0 57.
Proof. intro E; vm_compute in E; discriminate E. Qed.
Theorem long_signature_accepted : forall xof, is_xof xof -> forall message tail,
  ed448_verify xof one_enc (forged ++ tail) message = Some (Ok true).
Proof.
  intros xof XOF message tail. destruct (list_eq_dec Z.eq_dec tail []) as [->|N].
  - rewrite app_nil_r. apply identity_key_forgery. exact XOF.
  - rewrite (verify_tail xof one_enc forged tail message forged_len N one_not_zero). apply forged_dsa. exact XOF.
Qed.

(* 5. the comparison of field elements *)
Definition top_limb : bn := BN 0 0 0 0 0 0 0 0 0 0 0 0 0 0 0 1.
Theorem equality_false_positive : tight top_limb /\ tight BIG_ZERO /\ F top_limb <> F BIG_ZERO /\
  exists m, decaf_equal top_limb BIG_ZERO = Some m /\ decaf_equal BIG_ZERO BIG_ZERO = Some m.
Proof.
  assert (T : tight top_limb) by (apply limb_le_ok; vm_compute; reflexivity).
  split; [ exact T | ]. split; [ exact zero_tight | ]. split.
  - intro E. unfold F in E. apply mkF_eq in E. vm_compute in E. discriminate E.
  - exists (mask true). split; vm_compute; reflexivity.
Qed.
(* 6. text that is not a key *)
Theorem deserialize_panics : forall xof,
  secret_deserialize (Format true) (Ok [0x67]) = None /\ verifying_deserialize (Format true) (Ok []) = None /\
  signing_deserialize xof (Format true) (Ok []) = None.
Proof. intro xof. repeat split. Qed.
