(* Tests of the model (no proofs): every #[test] function of /repo/src, except for the three in TestVectors.v, run through the
   model.  Inputs and expected results were copied by a script.  Values are compared as they are: the points and numbers
   limb by limb, as the derived "==" of the crate does.  batch_test_sign_verify draws random keys; one key is in TestVectors.v,
   and C86 counts how often the first half of it fails. *)
From Coq Require Import ZArith List Bool String.
From Verif Require Import SpecShake Base Constants32 Karatsuba32 KaratsubaSquare32 BigNumber ScalarModel Niels Errors ExtendedPoint Eddsa Goldilocks
  Lib TestVectors.
Import ListNotations.
Open Scope Z_scope.

(* bignumber.rs line 668: test_deserialize *)
Goal True. test (deserialize [1; 0; 0; 0; 0; 0; 0; 0; 0; 0; 0; 0; 0; 0; 0; 0; 0; 0; 0; 0; 0; 0; 0; 0; 0; 0; 0; 0; 0; 0; 0; 0; 0; 0; 0; 0; 0; 0; 0; 0;
  0; 0; 0; 0; 0; 0; 0; 0; 0; 0; 0; 0; 0; 0; 0; 0]) (Some (BIG_ONE, true)). Qed.
Goal True. test (deserialize [245; 129; 116; 213; 122; 51; 114; 54; 60; 13; 159; 207; 170; 61; 193; 139; 30; 255; 126; 137; 191; 118; 120; 99; 101;
  128; 209; 125; 216; 74; 135; 59; 20; 185; 192; 225; 104; 11; 189; 200; 118; 71; 243; 195; 130; 144; 45; 47; 88; 210; 117; 75; 57; 188; 168; 116])
  (Some ((BN 91521525 119748525 252525622 64662777 253660097 200841199 90404982 131930118 193415896 202084675 218851553 74935435 8569843 92467929
  155940306 122325955), true)). Qed.
Goal True. test (deserialize [255; 255; 255; 255; 255; 255; 255; 255; 255; 255; 255; 255; 255; 255; 255; 255; 255; 255; 255; 255; 255; 255; 255; 255;
  255; 255; 255; 255; 254; 255; 255; 255; 255; 255; 255; 255; 255; 255; 255; 255; 255; 255; 255; 255; 255; 255; 255; 255; 255; 255; 255; 255; 255;
  255; 255; 255]) (Some ((BN 268435455 268435455 268435455 268435455 268435455 268435455 268435455 268435455 268435454 268435455 268435455 268435455
  268435455 268435455 268435455 268435455), false)). Qed.

(* bignumber.rs line 714: test_strong_reduce *)
Goal True. test ('(n, _) <- deserialize [255; 255; 255; 255; 255; 255; 255; 255; 255; 255; 255; 255; 255; 255; 255; 255; 255; 255; 255; 255; 255; 255;
  255; 255; 255; 255; 255; 255; 254; 255; 255; 255; 255; 255; 255; 255; 255; 255; 255; 255; 255; 255; 255; 255; 255; 255; 255; 255; 255; 255; 255;
  255; 255; 255; 255; 255] ;; strong_reduce n) (Some BIG_ZERO). Qed.
Goal True. test (n <- must_deserialize [245; 129; 116; 213; 122; 51; 114; 54; 60; 13; 159; 207; 170; 61; 193; 139; 30; 255; 126; 137; 191; 118; 120;
  99; 101; 128; 209; 125; 216; 74; 135; 59; 20; 185; 192; 225; 104; 11; 189; 200; 118; 71; 243; 195; 130; 144; 45; 47; 88; 210; 117; 75; 57; 188; 168;
  116] ;; strong_reduce n) (must_deserialize [245; 129; 116; 213; 122; 51; 114; 54; 60; 13; 159; 207; 170; 61; 193; 139; 30; 255; 126; 137; 191; 118;
  120; 99; 101; 128; 209; 125; 216; 74; 135; 59; 20; 185; 192; 225; 104; 11; 189; 200; 118; 71; 243; 195; 130; 144; 45; 47; 88; 210; 117; 75; 57; 188;
  168; 116]). Qed.

(* bignumber.rs line 746: test_subtraction *)
Goal True. test (x <- must_deserialize [218; 0; 0; 0; 0; 0; 0; 0; 0; 0; 0; 0; 0; 0; 0; 0; 0; 0; 0; 0; 0; 0; 0; 0; 0; 0; 0; 0; 0; 0; 0; 0; 0; 0; 0; 0;
  0; 0; 0; 0; 0; 0; 0; 0; 0; 0; 0; 0; 0; 0; 0; 0; 0; 0; 0; 0] ;; y <- must_deserialize [131; 0; 0; 0; 0; 0; 0; 0; 0; 0; 0; 0; 0; 0; 0; 0; 0; 0; 0; 0;
  0; 0; 0; 0; 0; 0; 0; 0; 0; 0; 0; 0; 0; 0; 0; 0; 0; 0; 0; 0; 0; 0; 0; 0; 0; 0; 0; 0; 0; 0; 0; 0; 0; 0; 0; 0] ;; d <- sub x y ;; strong_reduce d)
  (must_deserialize [87; 0; 0; 0; 0; 0; 0; 0; 0; 0; 0; 0; 0; 0; 0; 0; 0; 0; 0; 0; 0; 0; 0; 0; 0; 0; 0; 0; 0; 0; 0; 0; 0; 0; 0; 0; 0; 0; 0; 0; 0; 0; 0;
  0; 0; 0; 0; 0; 0; 0; 0; 0; 0; 0; 0; 0]). Qed.
Goal True. test (x <- must_deserialize [0; 0; 0; 241; 0; 0; 0; 0; 0; 0; 0; 0; 0; 0; 0; 0; 0; 0; 0; 0; 0; 0; 0; 0; 0; 0; 0; 0; 0; 0; 0; 0; 0; 0; 0; 0;
  0; 0; 0; 0; 0; 0; 0; 0; 0; 0; 0; 0; 0; 0; 0; 0; 0; 0; 0; 0] ;; y <- must_deserialize [1; 0; 0; 0; 0; 0; 0; 0; 0; 0; 0; 0; 0; 0; 0; 0; 0; 0; 0; 0; 0;
  0; 0; 0; 0; 0; 0; 0; 0; 0; 0; 0; 0; 0; 0; 0; 0; 0; 0; 0; 0; 0; 0; 0; 0; 0; 0; 0; 0; 0; 0; 0; 0; 0; 0; 0] ;; d <- sub x y ;; strong_reduce d)
  (must_deserialize [255; 255; 255; 240; 0; 0; 0; 0; 0; 0; 0; 0; 0; 0; 0; 0; 0; 0; 0; 0; 0; 0; 0; 0; 0; 0; 0; 0; 0; 0; 0; 0; 0; 0; 0; 0; 0; 0; 0; 0;
  0; 0; 0; 0; 0; 0; 0; 0; 0; 0; 0; 0; 0; 0; 0; 0]). Qed.

(* bignumber.rs line 778: test_addition *)
Goal True. test (x <- must_deserialize [87; 0; 0; 0; 0; 0; 0; 0; 0; 0; 0; 0; 0; 0; 0; 0; 0; 0; 0; 0; 0; 0; 0; 0; 0; 0; 0; 0; 0; 0; 0; 0; 0; 0; 0; 0;
  0; 0; 0; 0; 0; 0; 0; 0; 0; 0; 0; 0; 0; 0; 0; 0; 0; 0; 0; 0] ;; y <- must_deserialize [131; 0; 0; 0; 0; 0; 0; 0; 0; 0; 0; 0; 0; 0; 0; 0; 0; 0; 0; 0;
  0; 0; 0; 0; 0; 0; 0; 0; 0; 0; 0; 0; 0; 0; 0; 0; 0; 0; 0; 0; 0; 0; 0; 0; 0; 0; 0; 0; 0; 0; 0; 0; 0; 0; 0; 0] ;; Some (add x y)) (must_deserialize
  [218; 0; 0; 0; 0; 0; 0; 0; 0; 0; 0; 0; 0; 0; 0; 0; 0; 0; 0; 0; 0; 0; 0; 0; 0; 0; 0; 0; 0; 0; 0; 0; 0; 0; 0; 0; 0; 0; 0; 0; 0; 0; 0; 0; 0; 0; 0; 0;
  0; 0; 0; 0; 0; 0; 0; 0]). Qed.
Goal True. test (x <- must_deserialize [255; 255; 255; 240; 0; 0; 0; 0; 0; 0; 0; 0; 0; 0; 0; 0; 0; 0; 0; 0; 0; 0; 0; 0; 0; 0; 0; 0; 0; 0; 0; 0; 0; 0;
  0; 0; 0; 0; 0; 0; 0; 0; 0; 0; 0; 0; 0; 0; 0; 0; 0; 0; 0; 0; 0; 0] ;; y <- must_deserialize [1; 0; 0; 0; 0; 0; 0; 0; 0; 0; 0; 0; 0; 0; 0; 0; 0; 0; 0;
  0; 0; 0; 0; 0; 0; 0; 0; 0; 0; 0; 0; 0; 0; 0; 0; 0; 0; 0; 0; 0; 0; 0; 0; 0; 0; 0; 0; 0; 0; 0; 0; 0; 0; 0; 0; 0] ;; Some (add x y)) (must_deserialize
  [0; 0; 0; 241; 0; 0; 0; 0; 0; 0; 0; 0; 0; 0; 0; 0; 0; 0; 0; 0; 0; 0; 0; 0; 0; 0; 0; 0; 0; 0; 0; 0; 0; 0; 0; 0; 0; 0; 0; 0; 0; 0; 0; 0; 0; 0; 0; 0;
  0; 0; 0; 0; 0; 0; 0; 0]). Qed.

(* bignumber.rs line 810: test_sub_x_bias *)
Goal True. test (x <- must_deserialize [255; 0; 0; 0; 0; 0; 0; 0; 0; 0; 0; 0; 0; 0; 0; 0; 0; 0; 0; 0; 0; 0; 0; 0; 0; 0; 0; 0; 0; 0; 0; 0; 0; 0; 0; 0;
  0; 0; 0; 0; 0; 0; 0; 0; 0; 0; 0; 0; 0; 0; 0; 0; 0; 0; 0; 0] ;; y <- must_deserialize [255; 0; 0; 0; 0; 0; 0; 0; 0; 0; 0; 0; 0; 0; 0; 0; 0; 0; 0; 0;
  0; 0; 0; 0; 0; 0; 0; 0; 0; 0; 0; 0; 0; 0; 0; 0; 0; 0; 0; 0; 0; 0; 0; 0; 0; 0; 0; 0; 0; 0; 0; 0; 0; 0; 0; 0] ;; sub_x_bias x y 2) (Some (BN 268435455
  268435455 268435455 268435455 268435455 268435455 268435455 268435455 268435454 268435455 268435455 268435455 268435455 268435455 268435455
  268435455)). Qed.

(* bignumber.rs line 827: test_conditional_swap *)
Goal True. test (a <- must_deserialize [230; 245; 184; 174; 73; 206; 247; 121; 229; 119; 220; 41; 130; 78; 255; 69; 63; 28; 65; 6; 3; 0; 136; 17; 94;
  164; 155; 78; 232; 74; 123; 124; 223; 224; 110; 13; 98; 47; 197; 92; 124; 85; 154; 177; 246; 195; 234; 50; 87; 192; 121; 121; 128; 144; 38; 222] ;;
  b <- must_deserialize [25; 10; 71; 81; 182; 49; 8; 134; 26; 136; 35; 214; 125; 177; 0; 186; 192; 227; 190; 249; 252; 255; 119; 238; 161; 91; 100;
  176; 23; 181; 132; 131; 32; 31; 145; 242; 157; 208; 58; 163; 131; 170; 101; 78; 9; 60; 21; 205; 168; 63; 134; 134; 127; 111; 217; 33] ;; let '(a, b)
  := conditional_swap a b LMASK in Some (a, b, conditional_swap a b 0)) (x <- must_deserialize [230; 245; 184; 174; 73; 206; 247; 121; 229; 119; 220;
  41; 130; 78; 255; 69; 63; 28; 65; 6; 3; 0; 136; 17; 94; 164; 155; 78; 232; 74; 123; 124; 223; 224; 110; 13; 98; 47; 197; 92; 124; 85; 154; 177; 246;
  195; 234; 50; 87; 192; 121; 121; 128; 144; 38; 222] ;; y <- must_deserialize [25; 10; 71; 81; 182; 49; 8; 134; 26; 136; 35; 214; 125; 177; 0; 186;
  192; 227; 190; 249; 252; 255; 119; 238; 161; 91; 100; 176; 23; 181; 132; 131; 32; 31; 145; 242; 157; 208; 58; 163; 131; 170; 101; 78; 9; 60; 21;
  205; 168; 63; 134; 134; 127; 111; 217; 33] ;; Some (y, x, (y, x))). Qed.

(* bignumber.rs line 861: test_isr *)
Goal True. test (x <- must_deserialize [159; 147; 237; 10; 132; 222; 240; 199; 160; 75; 63; 3; 112; 193; 150; 61; 198; 148; 45; 147; 243; 170; 126;
  20; 150; 250; 236; 156; 112; 208; 89; 60; 92; 6; 95; 36; 51; 247; 173; 38; 106; 58; 69; 152; 96; 244; 175; 79; 27; 255; 146; 38; 234; 160; 126; 41]
  ;; isr x) (Some (BN 29773570 137982333 1945968 118417199 265338750 53110653 197553960 191470666 233741762 151481942 109183904 77807714 38252586
  5438964 61033406 4204497)). Qed.

(* bignumber.rs line 877: test_square_n *)
Goal True. test (x <- must_deserialize [159; 147; 237; 10; 132; 222; 240; 199; 160; 75; 63; 3; 112; 193; 150; 61; 198; 148; 45; 147; 243; 170; 126;
  20; 150; 250; 236; 156; 112; 208; 89; 60; 92; 6; 95; 36; 51; 247; 173; 38; 106; 58; 69; 152; 96; 244; 175; 79; 27; 255; 146; 38; 234; 160; 126; 41]
  ;; square_n x 5) (x <- must_deserialize [159; 147; 237; 10; 132; 222; 240; 199; 160; 75; 63; 3; 112; 193; 150; 61; 198; 148; 45; 147; 243; 170; 126;
  20; 150; 250; 236; 156; 112; 208; 89; 60; 92; 6; 95; 36; 51; 247; 173; 38; 106; 58; 69; 152; 96; 244; 175; 79; 27; 255; 146; 38; 234; 160; 126; 41]
  ;; Some (square (square (square (square (square x)))))). Qed.
Goal True. test (x <- must_deserialize [159; 147; 237; 10; 132; 222; 240; 199; 160; 75; 63; 3; 112; 193; 150; 61; 198; 148; 45; 147; 243; 170; 126;
  20; 150; 250; 236; 156; 112; 208; 89; 60; 92; 6; 95; 36; 51; 247; 173; 38; 106; 58; 69; 152; 96; 244; 175; 79; 27; 255; 146; 38; 234; 160; 126; 41]
  ;; square_n x 6) (x <- must_deserialize [159; 147; 237; 10; 132; 222; 240; 199; 160; 75; 63; 3; 112; 193; 150; 61; 198; 148; 45; 147; 243; 170; 126;
  20; 150; 250; 236; 156; 112; 208; 89; 60; 92; 6; 95; 36; 51; 247; 173; 38; 106; 58; 69; 152; 96; 244; 175; 79; 27; 255; 146; 38; 234; 160; 126; 41]
  ;; Some (square (square (square (square (square (square x))))))). Qed.

(* bignumber.rs line 900: test_dsa_like_deserialize *)
Goal True. test (dsa_like_deserialize [165; 217; 206; 164; 6; 137; 164; 19; 148; 240; 105; 50; 254; 224; 219; 17; 123; 224; 117; 120; 104; 44; 72; 68;
  112; 59; 233; 198; 100; 222; 108; 224; 214; 165; 163; 78; 231; 56; 217; 179; 12; 147; 117; 117; 141; 232; 80; 222; 6; 44; 185; 117; 80; 125; 36;
  133; 0] 0) (Some ((BN 80664997 172527722 166761491 235922214 8065499 109545310 4474924 208573367 7134820 171597166 154724174 154192701 143488373
  7202062 7715116 139610069), DECAF_TRUE)). Qed.

(* bignumber.rs line 919: test_mul_w *)
Goal True. test ('(x, _) <- deserialize [245; 129; 116; 213; 122; 51; 114; 54; 60; 13; 159; 207; 170; 61; 193; 139; 30; 255; 126; 137; 191; 118; 120;
  99; 101; 128; 209; 125; 216; 74; 135; 59; 20; 185; 192; 225; 104; 11; 189; 200; 118; 71; 243; 195; 130; 144; 45; 47; 88; 210; 117; 75; 57; 188; 168;
  116] ;; mul_w x 2) ('(x, _) <- deserialize [245; 129; 116; 213; 122; 51; 114; 54; 60; 13; 159; 207; 170; 61; 193; 139; 30; 255; 126; 137; 191; 118;
  120; 99; 101; 128; 209; 125; 216; 74; 135; 59; 20; 185; 192; 225; 104; 11; 189; 200; 118; 71; 243; 195; 130; 144; 45; 47; 88; 210; 117; 75; 57; 188;
  168; 116] ;; Some (mul x (BN 2 0 0 0 0 0 0 0 0 0 0 0 0 0 0 0))). Qed.

(* bignumber.rs line 935: test_mul_with_signed_curve_constant *)
Goal True. test (x <- must_deserialize [2; 0; 0; 0; 0; 0; 0; 0; 0; 0; 0; 0; 0; 0; 0; 0; 0; 0; 0; 0; 0; 0; 0; 0; 0; 0; 0; 0; 0; 0; 0; 0; 0; 0; 0; 0; 0;
  0; 0; 0; 0; 0; 0; 0; 0; 0; 0; 0; 0; 0; 0; 0; 0; 0; 0; 0] ;; mul_with_signed_curve_constant x EDWARDS_D) (Some (BN 268357293 268435455 268435455
  268435455 268435455 268435455 268435455 268435455 268435454 268435455 268435455 268435455 268435455 268435455 268435455 268435455)). Qed.

(* bignumber.rs line 951: test_decaf_cond_negate *)
Goal True. test (decaf_cond_negate (BN 9447134 201824152 65679959 162209644 89947221 14033660 215998574 243574711 245668686 557333 205587971 267670513
  204046926 127817597 239718135 242178954) LMASK) (Some (BN 258988321 66611303 202755496 106225811 178488234 254401795 52436881 24860744 22766768
  267878122 62847484 764942 64388529 140617858 28717320 26256501)). Qed.

(* scalar.rs line 229: test_scalar_copy *)
Goal True. test (copy [4290257827; 3379182645; 2140066429; 142315449; 496681738; 1960204132; 3233679406; 2831878888; 2834978091; 716080776; 742244979;
  1204784300; 990420743; 509863943]) ([4290257827; 3379182645; 2140066429; 142315449; 496681738; 1960204132; 3233679406; 2831878888; 2834978091;
  716080776; 742244979; 1204784300; 990420743; 509863943]). Qed.

(* scalar.rs line 239: test_scalar_set *)
Goal True. test (set 238) ([238; 0; 0; 0; 0; 0; 0; 0; 0; 0; 0; 0; 0; 0]). Qed.

(* scalar.rs line 247: test_add_scalars *)
Goal True. test (sadd [1386146867; 1914500533; 3370762923; 2051864117; 1151804863; 4005860057; 215445592; 2; 0; 0; 0; 0; 0; 0] [1; 0; 0; 0; 0; 0; 0;
  0; 0; 0; 0; 0; 0; 0]) (@Some scalar [1386146868; 1914500533; 3370762923; 2051864117; 1151804863; 4005860057; 215445592; 2; 0; 0; 0; 0; 0; 0]). Qed.
Goal True. test (sadd [1; 0; 0; 0; 0; 0; 0; 0; 0; 0; 0; 0; 0; 0] SCALAR_Q) (@Some scalar [1; 0; 0; 0; 0; 0; 0; 0; 0; 0; 0; 0; 0; 0]). Qed.

(* scalar.rs line 265: test_sub_scalars *)
Goal True. test (ssub (set 2) (set 1)) (@Some scalar (set 1)). Qed.
Goal True. test (ssub (set 1) (set 2)) (ssub SCALAR_Q (set 1)). Qed.

(* scalar.rs line 277: test_scalar_halve *)
Goal True. test (halve (set 12)) (set 6). Qed.

(* scalar.rs line 286: test_montgomery_multiply *)
Goal True. test (montgomery_multiply [3490967947; 2688271135; 2774035456; 1382665450; 2159987519; 939885910; 1936473179; 126916743; 2266566366;
  716080776; 742244979; 1204784300; 990420743; 509863943] [1; 0; 0; 0; 0; 0; 0; 0; 0; 0; 0; 0; 0; 0]) (@Some scalar [4053775151; 1656515302;
  3982647430; 237863383; 2055460171; 954677145; 1213912022; 1161403550; 2185958105; 1525170889; 1554363910; 1007253683; 2302362210; 583612434]). Qed.
Goal True. test (montgomery_multiply [4053775151; 1656515302; 3982647430; 237863383; 2055460171; 954677145; 1213912022; 1161403550; 2185958105;
  1525170889; 1554363910; 1007253683; 2302362210; 583612434] SCALAR_R2) (@Some scalar [3490967947; 2688271135; 2774035456; 1382665450; 2159987519;
  939885910; 1936473179; 126916743; 2266566366; 716080776; 742244979; 1204784300; 990420743; 509863943]). Qed.
Goal True. test (montgomery_multiply [3490967947; 2688271135; 2774035456; 1382665450; 2159987519; 939885910; 1936473179; 126916743; 2266566366;
  716080776; 742244979; 1204784300; 990420743; 509863943] SCALAR_ZERO) (@Some scalar SCALAR_ZERO). Qed.
Goal True. test (montgomery_multiply [4290257827; 3379182645; 2140066429; 142315449; 496681738; 1960204132; 3233679406; 2831878888; 2834978091;
  716080776; 742244979; 1204784300; 990420743; 509863943] [3636386882; 1752085289; 3826694297; 397045147; 506508171; 411855642; 3499710811;
  3157539787; 450535655; 619238553; 2388243208; 177397293; 3403795304; 382027018]) (@Some scalar [346997003; 1114452889; 1064939422; 2985718105;
  1789256212; 864132139; 432212617; 1208736907; 2067667983; 1577181128; 2484339583; 878269646; 1629385105; 423104864]). Qed.

(* scalar.rs line 328: test_scalar_multiply *)
Goal True. test (smul [4290257827; 3379182645; 2140066429; 142315449; 496681738; 1960204132; 3233679406; 2831878888; 2834978091; 716080776; 742244979;
  1204784300; 990420743; 509863943] [3636386882; 1752085289; 3826694297; 397045147; 506508171; 411855642; 3499710811; 3157539787; 450535655;
  619238553; 2388243208; 177397293; 3403795304; 382027018]) (@Some scalar [2710372618; 526070167; 2571934763; 1790781173; 144941284; 916539680;
  1961440095; 129816881; 4074282014; 3104010230; 540885579; 4241318323; 1285786093; 836785601]). Qed.

(* scalar.rs line 345: test_scalar_decode *)
Goal True. test (decode_long []) (@Some scalar SCALAR_ZERO). Qed.
Goal True. test (decode_long [245; 129; 116; 213; 122; 51; 114; 54; 60; 13; 159; 207; 170; 61; 193; 139; 30; 255; 126; 137; 191; 118; 120; 99; 101;
  128; 209; 125; 216; 74; 135; 59; 20; 185; 192; 225; 104; 11; 189; 200; 118; 71; 243; 195; 130; 144; 45; 47; 88; 210; 117; 75; 57; 188; 168; 116])
  (@Some scalar [706493698; 318337256; 1104772583; 1783921464; 3668494478; 2670304117; 17259643; 998722265; 3787503892; 3367832424; 3287500662;
  791515266; 1266012760; 883473465]). Qed.
Goal True. test (decode_long [240; 228; 77; 212; 152; 243; 173; 48; 131; 225; 245; 252; 193; 68; 237; 31; 245; 251; 98; 91; 166; 33; 65; 168; 222; 42;
  144; 35; 19; 179; 26; 209; 65; 19; 66; 148; 219; 155; 13; 132; 236; 67; 122; 81; 90; 155; 133; 189; 161; 177; 94; 172; 235; 228; 163; 178; 0])
  (@Some scalar [2107464458; 3921440371; 3781870296; 3709059036; 4256599764; 530803474; 704373515; 3508187924; 2487358273; 2215484379; 1366967276;
  3179649882; 2891887009; 849601771]). Qed.

(* scalar.rs line 379: test_scalar_decode_very_long *)
Goal True. test (s <- decode_long [113; 214; 2; 210; 19; 148; 73; 41; 117; 24; 209; 199; 78; 45; 69; 68; 96; 42; 187; 187; 104; 253; 185; 21; 216;
  234; 217; 12; 166; 217; 102; 114; 55; 139; 2; 178; 241; 162; 98; 154; 186; 86; 15; 201; 179; 157; 141; 61; 218; 47; 230; 120; 98; 39; 97; 110; 233;
  54; 19; 12; 204; 52; 5; 103; 208; 207; 118; 144; 197; 246; 145; 215; 120; 130; 68; 235; 190; 179; 117; 196; 97; 238; 94; 156; 65; 238; 220; 167;
  191; 63; 145; 54; 129; 48; 18; 103; 25; 104; 43; 28; 115; 40; 56; 92; 22; 114; 230; 185; 2; 110; 228; 207; 86; 25] ;; Some (encode s)) (Some [18; 0;
  122; 40; 64; 83; 106; 212; 137; 224; 12; 110; 199; 250; 122; 198; 225; 119; 142; 142; 52; 184; 211; 92; 97; 132; 115; 204; 180; 246; 56; 156; 108;
  243; 47; 164; 202; 112; 254; 45; 79; 202; 8; 43; 56; 253; 199; 49; 243; 27; 109; 135; 245; 21; 230; 27; 0]). Qed.

(* karatsuba_32.rs line 376: test_karatsuba *)
Goal True. test ('(x, _) <- deserialize [245; 129; 116; 213; 122; 51; 114; 54; 60; 13; 159; 207; 170; 61; 193; 139; 30; 255; 126; 137; 191; 118; 120;
  99; 101; 128; 209; 125; 216; 74; 135; 59; 20; 185; 192; 225; 104; 11; 189; 200; 118; 71; 243; 195; 130; 144; 45; 47; 88; 210; 117; 75; 57; 188; 168;
  116] ;; '(y, _) <- deserialize [116; 168; 188; 57; 75; 117; 210; 88; 47; 45; 144; 130; 195; 243; 71; 118; 200; 189; 11; 104; 225; 192; 185; 20; 59;
  135; 74; 216; 125; 209; 128; 101; 99; 120; 118; 191; 137; 126; 255; 30; 139; 193; 61; 170; 207; 159; 13; 60; 54; 114; 51; 122; 213; 116; 129; 245]
  ;; Some (karatsuba_mul x y)) ('(x, _) <- deserialize [17; 149; 156; 46; 145; 120; 111; 236; 255; 55; 229; 142; 43; 80; 158; 248; 251; 65; 8; 196;
  167; 2; 28; 191; 90; 159; 24; 167; 236; 50; 101; 126; 237; 220; 129; 129; 128; 168; 76; 221; 149; 20; 230; 103; 38; 211; 161; 34; 219; 179; 159; 23;
  122; 133; 22; 108] ;; Some x). Qed.

(* karatsuba_square_32.rs line 297: test_karatsuba_square *)
Goal True. test ('(x, _) <- deserialize [245; 129; 116; 213; 122; 51; 114; 54; 60; 13; 159; 207; 170; 61; 193; 139; 30; 255; 126; 137; 191; 118; 120;
  99; 101; 128; 209; 125; 216; 74; 135; 59; 20; 185; 192; 225; 104; 11; 189; 200; 118; 71; 243; 195; 130; 144; 45; 47; 88; 210; 117; 75; 57; 188; 168;
  116] ;; Some (karatsuba_square x)) ('(x, _) <- deserialize [245; 129; 116; 213; 122; 51; 114; 54; 60; 13; 159; 207; 170; 61; 193; 139; 30; 255; 126;
  137; 191; 118; 120; 99; 101; 128; 209; 125; 216; 74; 135; 59; 20; 185; 192; 225; 104; 11; 189; 200; 118; 71; 243; 195; 130; 144; 45; 47; 88; 210;
  117; 75; 57; 188; 168; 116] ;; '(y, _) <- deserialize [245; 129; 116; 213; 122; 51; 114; 54; 60; 13; 159; 207; 170; 61; 193; 139; 30; 255; 126; 137;
  191; 118; 120; 99; 101; 128; 209; 125; 216; 74; 135; 59; 20; 185; 192; 225; 104; 11; 189; 200; 118; 71; 243; 195; 130; 144; 45; 47; 88; 210; 117;
  75; 57; 188; 168; 116] ;; Some (karatsuba_mul x y)). Qed.

(* extended_point.rs line 617: test_double_internal *)
Goal True. test (double_internal (MkPoint (BN 137710458 144028648 112087413 105165716 192917406 206714843 20581520 150322400 161732507 15824217
  233369665 121512495 230864878 5948244 124181304 106312190) (BN 3770501 89955309 182731722 265752228 165849042 78392989 6783623 43284110 190860522
  129274647 230860505 239380219 165362021 77413365 65426942 3841026) (BN 265646434 171571048 50370390 106787679 220045954 92925143 3249841 201334270
  27201616 22210770 202702648 16229446 41964534 260739561 94951060 164998790) (BN 68783918 226640911 265162766 183796381 224146710 9740506 126671673
  242452534 32265069 115331561 249651571 182307008 127400733 93798819 176135220 143646886)) false) (Some (MkPoint (BN 14217292 65357449 246733611
  143112756 173756092 258736737 62892035 67698434 62189350 73777192 215249784 105665972 136599632 26289794 231471404 128449072) (BN 227856806
  259196648 41464630 70658939 263127737 112205080 128292826 198618576 75168408 241494167 197101798 30450996 77933469 183727328 84483412 16576933) (BN
  69408974 78564782 244259179 1692387 73208956 101389630 182398007 68799960 114397254 13731873 113752514 202374504 192826530 114953558 156414991
  50365333) (BN 73676179 921565 20916723 196647213 170971972 152379116 219331458 96968788 17023686 145104866 181327039 259445889 230126782 106887336
  267680369 256505662))). Qed.
Goal True. test (double_internal (MkPoint (BN 1 0 0 0 0 0 0 0 0 0 0 0 0 0 0 0) (BN 2 0 0 0 0 0 0 0 0 0 0 0 0 0 0 0) (BN 3 0 0 0 0 0 0 0 0 0 0 0 0 0 0
  0) (BN 4 0 0 0 0 0 0 0 0 0 0 0 0 0 0 0)) true) (Some (MkPoint (BN 59 268435456 268435455 268435455 268435455 268435455 268435455 268435455 268435454
  268435455 268435455 268435455 268435455 268435455 268435455 268435455) (BN 14 0 0 0 0 0 0 0 268435455 268435455 268435455 268435455 268435455
  268435455 268435455 268435455) (BN 44 268435456 268435455 268435455 268435455 268435455 268435455 268435455 268435454 268435455 268435455 268435455
  268435455 268435455 268435455 268435455) (BN 2 268435456 268435455 268435455 268435455 268435455 268435455 268435455 268435454 268435455 268435455
  268435455 268435455 268435455 268435455 268435455))). Qed.

(* extended_point.rs line 698: test_conditional_negate *)
Goal True. test (a <- must_deserialize [75; 138; 99; 44; 31; 234; 183; 39; 105; 205; 150; 231; 170; 165; 119; 134; 24; 113; 179; 97; 57; 69; 200; 2;
  184; 147; 119; 232; 184; 83; 49; 236; 192; 255; 177; 203; 32; 22; 155; 252; 156; 39; 39; 77; 56; 176; 208; 30; 135; 161; 213; 216; 81; 119; 11; 200]
  ;; b <- must_deserialize [129; 164; 95; 2; 244; 16; 83; 248; 215; 210; 161; 241; 118; 163; 64; 82; 155; 51; 183; 238; 77; 63; 168; 77; 227; 132;
  183; 80; 179; 90; 84; 195; 21; 191; 54; 196; 29; 2; 58; 222; 34; 100; 73; 145; 110; 102; 131; 150; 88; 158; 162; 20; 93; 160; 155; 149] ;; c <-
  must_deserialize [95; 90; 43; 6; 162; 219; 247; 19; 111; 141; 201; 121; 253; 84; 214; 49; 202; 125; 229; 3; 151; 37; 10; 25; 109; 59; 226; 167; 33;
  171; 124; 186; 169; 44; 84; 93; 155; 21; 181; 49; 158; 17; 182; 75; 192; 49; 102; 96; 73; 216; 99; 126; 19; 131; 139; 59] ;;
  niels_conditional_negate (Niels a b c) LMASK) (a <- must_deserialize [75; 138; 99; 44; 31; 234; 183; 39; 105; 205; 150; 231; 170; 165; 119; 134; 24;
  113; 179; 97; 57; 69; 200; 2; 184; 147; 119; 232; 184; 83; 49; 236; 192; 255; 177; 203; 32; 22; 155; 252; 156; 39; 39; 77; 56; 176; 208; 30; 135;
  161; 213; 216; 81; 119; 11; 200] ;; b <- must_deserialize [129; 164; 95; 2; 244; 16; 83; 248; 215; 210; 161; 241; 118; 163; 64; 82; 155; 51; 183;
  238; 77; 63; 168; 77; 227; 132; 183; 80; 179; 90; 84; 195; 21; 191; 54; 196; 29; 2; 58; 222; 34; 100; 73; 145; 110; 102; 131; 150; 88; 158; 162; 20;
  93; 160; 155; 149] ;; c <- must_deserialize [95; 90; 43; 6; 162; 219; 247; 19; 111; 141; 201; 121; 253; 84; 214; 49; 202; 125; 229; 3; 151; 37; 10;
  25; 109; 59; 226; 167; 33; 171; 124; 186; 169; 44; 84; 93; 155; 21; 181; 49; 158; 17; 182; 75; 192; 49; 102; 96; 73; 216; 99; 126; 19; 131; 139; 59]
  ;; c' <- neg c ;; Some (Niels b a c')). Qed.

(* extended_point.rs line 732: test_add_niels_to_extended *)
Goal True. test (add_niels_to_extended (MkPoint (BN 0 0 0 0 0 0 0 0 0 0 0 0 0 0 0 0) (BN 1 0 0 0 0 0 0 0 0 0 0 0 0 0 0 0) (BN 1 0 0 0 0 0 0 0 0 0 0 0
  0 0 0 0) (BN 0 0 0 0 0 0 0 0 0 0 0 0 0 0 0 0)) (Niels (BN 109927284 0 0 0 0 0 0 0 0 0 0 0 0 0 0 0) (BN 109927284 0 0 0 0 0 0 0 0 0 0 0 0 0 0 0) (BN
  109927284 0 0 0 0 0 0 0 0 0 0 0 0 0 0 0)) true) (Some (MkPoint (BN 268435455 268435455 268435455 268435455 268435455 268435455 268435455 268435455
  268435454 268435455 268435455 268435455 268435455 268435455 268435455 268435455) (BN 219854567 0 0 0 0 0 0 0 268435455 268435455 268435455 268435455
  268435455 268435455 268435455 268435455) (BN 0 0 0 0 0 0 0 0 268435455 268435455 268435455 268435455 268435455 268435455 268435455 268435455) (BN 0
  0 0 0 0 0 0 0 0 0 0 0 0 0 0 0))). Qed.
Goal True. test (add_niels_to_extended (MkPoint (BN 14217292 65357449 246733611 143112756 173756092 258736737 62892035 67698434 62189350 73777192
  215249784 105665972 136599632 26289794 231471404 128449072) (BN 227856806 259196648 41464630 70658939 263127737 112205080 128292826 198618576
  75168408 241494167 197101798 30450996 77933469 183727328 84483412 16576933) (BN 69408974 78564782 244259179 1692387 73208956 101389630 182398007
  68799960 114397254 13731873 113752514 202374504 192826530 114953558 156414991 50365333) (BN 73676179 921565 20916723 196647213 170971972 152379116
  219331458 96968788 17023686 145104866 181327039 259445889 230126782 106887336 267680369 256505662)) (Niels (BN 150778383 73470087 30175026 234110386
  72443460 268295839 152471225 85561719 265503859 192066625 212977451 148133508 16521125 22118711 8352979 172322067) (BN 162924508 21171988 23533052
  244919501 10693129 174203035 203864292 193502445 180423119 94108067 192932546 109517747 228200043 256527711 13461925 194370374) (BN 146646786
  56820801 22418776 129783430 238043503 255085512 135223767 174347120 131074766 189538311 187103436 250058272 11878461 174740878 107953433 150065863))
  false) (Some (MkPoint (BN 107137445 237749123 162724920 4379973 70368232 165847908 62449966 234278979 118714144 12444926 212310105 206062368
  160761796 251036646 167256605 186637496) (BN 179275551 150777263 158640874 131546258 198883852 110959606 151447388 2155667 128115180 115505272
  15321554 149170677 40860806 69265093 50658507 93978126) (BN 28467497 119310799 184624017 7649404 53589499 170704013 219825961 179589587 50907862
  235433003 62732652 215137671 152106012 151775066 177043982 132939432) (BN 146264099 96232054 65144877 164883363 248261363 128239550 147474872
  247337024 217505259 22987263 17755489 142796877 134151032 228057604 48840865 87545792))). Qed.

(* extended_point.rs line 855: test_precomputed_scalarmul *)
Goal True. test (p <- precomputed_scalar_mul SCALAR_ZERO ;; Some (px p, pt p)) (Some ((BN 268435455 268435455 268435455 268435455 268435455 268435455
  268435455 268435455 268435454 268435455 268435455 268435455 268435455 268435455 268435455 268435455), (BN 268435455 268435455 268435455 268435455
  268435455 268435455 268435455 268435455 268435454 268435455 268435455 268435455 268435455 268435455 268435455 268435455))). Qed.

(* extended_point.rs line 885: test_is_valid_point *)
Goal True. test (is_on_curve (MkPoint (BN 54748616 112371828 246969815 182765479 126213892 160600913 33459259 254414431 17945500 128668346 31409490
  30963046 254376930 41683215 176271701 219829803) (BN 14325512 243095614 230473881 221097353 94674148 30100956 153670549 10017053 201266894 116404122
  216169665 229332867 190135700 52763148 105738491 134101551) (BN 223492044 52023557 44772853 36607798 226063407 6850322 19741285 250909278 198234720
  137540914 100331303 33547623 23187059 129868021 56427761 154203442) (BN 32951335 163478410 36100729 258081521 242377948 220573361 113778439 63122652
  153339988 217880677 89862125 96324752 27891765 245399638 180090723 58879023))) (Some true). Qed.
Goal True. test (is_on_curve (MkPoint (BN 4294967295 4294967295 4294967295 4294967295 4294967295 4294967295 4294967295 4294967295 4294967295
  4294967295 4294967295 4294967295 4294967295 4294967295 4294967295 4294967295) (BN 4294967295 4294967295 4294967295 4294967295 4294967295 4294967295
  4294967295 4294967295 4294967295 4294967295 4294967295 4294967295 4294967295 4294967295 4294967295 4294967295) (BN 4294967295 4294967295 4294967295
  4294967295 4294967295 4294967295 4294967295 4294967295 4294967295 4294967295 4294967295 4294967295 4294967295 4294967295 4294967295 4294967295) (BN
  4294967295 4294967295 4294967295 4294967295 4294967295 4294967295 4294967295 4294967295 4294967295 4294967295 4294967295 4294967295 4294967295
  4294967295 4294967295 4294967295))) (Some false). Qed.

(* extended_point.rs line 932: test_eddsa_like_decode *)
Goal True. test (eddsa_like_decode [165; 217; 206; 164; 6; 137; 164; 19; 148; 240; 105; 50; 254; 224; 219; 17; 123; 224; 117; 120; 104; 44; 72; 68;
  112; 59; 233; 198; 100; 222; 108; 224; 214; 165; 163; 78; 231; 56; 217; 179; 12; 147; 117; 117; 141; 232; 80; 222; 6; 44; 185; 117; 80; 125; 36;
  133; 0]) (p <- point_scalar_mul (MkPoint (BN 209598264 213764476 227419632 53683331 17950716 206269639 261060908 200982473 104863073 9170258
  43672353 9659037 130835948 167970502 164473865 17973553) (BN 204862483 199898043 171310942 230208288 233633683 216572166 191669533 72670236 5514411
  244804324 152727019 125886817 59036240 12911646 200234258 221886372) (BN 29356288 29001063 126519406 27628084 259796777 84397512 52501816 248479672
  148004835 71672355 60584328 225417372 119721974 252440288 70839249 254874850) (BN 94114194 170194752 167302947 230030731 149296539 11535586
  116584496 56380472 20478278 55959655 131327508 164985756 61916119 117451682 256782863 65731185)) (halve (halve (set 1))) ;; Some (@Ok point error
  p)). Qed.

(* eddsa.rs line 109: test_dsa_verify *)
Goal True. test (dsa_verify shake256 [195; 193; 156; 26; 17; 153; 66; 251; 226; 152; 245; 223; 117; 101; 207; 48; 3; 101; 6; 3; 98; 172; 67; 111; 92;
  180; 137; 58; 219; 242; 33; 124; 171; 95; 19; 77; 117; 240; 95; 215; 148; 192; 172; 159; 209; 0; 41; 180; 226; 130; 237; 201; 179; 228; 32; 120;
  128] [211; 255; 226; 207; 254; 186; 132; 246; 49; 201; 228; 244; 82; 199; 242; 112; 35; 180; 142; 103; 159; 48; 173; 159; 67; 180; 239; 4; 131; 103;
  14; 37; 132; 46; 253; 214; 162; 10; 215; 79; 44; 8; 53; 30; 55; 133; 119; 99; 192; 225; 183; 135; 167; 160; 44; 92; 0; 112; 130; 99; 178; 6; 171;
  133; 46; 134; 86; 118; 179; 184; 173; 44; 134; 121; 76; 210; 131; 27; 84; 6; 76; 218; 57; 226; 112; 58; 76; 23; 42; 29; 235; 240; 81; 224; 26; 233;
  129; 197; 138; 87; 119; 49; 18; 127; 43; 251; 122; 170; 63; 146; 66; 87; 36; 0] fox) (Some (@Ok bool error true)). Qed.

(* goldilocks.rs line 192: test_decode_hex *)
Goal True. test (hex_to_private_key (str "a8ea212cc24ae0fd029a97b64be540885af0e1b7dc9faf4a591742850c4377f857ae9a8f87df1de98e397a5867dd6f20211ef3f234ae71bc56")) (Some [168; 234; 33; 44; 194; 74; 224; 253; 2; 154; 151; 182; 75; 229; 64; 136; 90; 240; 225; 183; 220; 159; 175; 74; 89; 23; 66; 133; 12; 67; 119; 248; 87; 174; 154; 143; 135; 223; 29; 233; 142; 57; 122; 88; 103; 221; 111; 32; 33; 30; 243; 242; 52; 174; 113; 188; 86]). Qed.

(* goldilocks.rs line 219: test_private_to_public *)
Goal True. test (k <- hex_to_private_key (str "a8ea212cc24ae0fd029a97b64be540885af0e1b7dc9faf4a591742850c4377f857ae9a8f87df1de98e397a5867dd6f20211ef3f234ae71bc56") ;; private_to_public shake256 k) (hex_to_private_key (str "b615e57dd4d15c3ed1323725c0ba8b1d7f6e740d08e0e29c6d3ff564c896c0c3dd28a9bb5065e06725c8f9e3f7c2c6bbad4900b7447ecf9880")). Qed.

(* goldilocks.rs line 227: test_sign_with_private *)
Goal True. test (k <- hex_to_private_key (str "64c2754ee8f55f285d1c6efac34345c78da28df5c31d9ae3748417e0754903004eca31389e978df148e3941de8d4c3585b6dd3669903f00bb5") ;; sign_by_private shake256 k fox) (hex_to_signature (str "d3ffe2cffeba84f631c9e4f452c7f27023b48e679f30ad9f43b4ef0483670e25842efdd6a20ad74f2c08351e37857763c0e1b787a7a02c5c00708263b206ab852e865676b3b8ad2c86794cd2831b54064cda39e2703a4c172a1debf051e01ae981c58a577731127f2bfb7aaa3f9242572400")). Qed.

(* goldilocks.rs line 236: test_sign_with_secret_and_nonce *)
Goal True. test (k <- hex_to_private_key (str "26ad14d91ef8f1e5bbf5a1a7e44a9532e4854f1e1346761ee9b4ed1ed103e5e05c87fd9ecd788bc879a7433a7115255b7aad667fe84ee35c28") ;; n <- hex_to_private_key (str "66dd9754284a1b7d77c1c43bfdfe38a116bd143e7c901b8e8e4561a7ee0a401dd5120fa2b77e2a6bda3a68d5a47e34fd29cf14ce3489067602") ;; sign_with_secret_and_nonce shake256 k n fox) (hex_to_signature (str "71e4ae51aa4d1f59f10efaaca743ca557079c2de1d298375d80eac8c53d29567add49f6296206f6c0d56ad3cd3f34b3644b1b01361900bea803aae2018aea2db72a2c5557a207ba17b8316335817b4a9474def73b3ea0ddaaae593e76596fbeac45c8ef04df3bb23dc809d2b7db49dbf0a00")). Qed.

(* goldilocks.rs line 273: test_ed448_derive_public *)
Goal True. test (k <- hex_to_private_key (str "582f73eb3d951ef93a8c392c7b113ad85c0f60a744c95c47370d4d593593edc0d745eb24fa2130f51fd5b1e6b2363a5405bf1e074ecbf4382d") ;; ed448_derive_public shake256 k) (hex_to_private_key (str "4e6ef3aa2a74ce85c9c75de379c72abbce30601db4f66af1535d00190fa5de83af3831fa32e37c59e14a25788e56140896fb59b494e4fdca80")). Qed.
Goal True. test (k <- hex_to_private_key (str "59fc82f514f3fc8d02d987e52a03cdcae81a257bed6ec9b668bf6acd8fe9e7d27cbcc4d8f463d917642d30e7ca44c3521370f78790b3b561dd") ;; ed448_derive_public shake256 k) (hex_to_private_key (str "3cba3b2560c2779170ce5947f55bf73b93a1dd51d99b0b483ed0cfb5a9bb8409830c0f96068c799dbc6a28ca6bc1aad95d0387c36a731d7800")). Qed.

(* goldilocks.rs line 286: test_ed448_sign, the second key (the first is in TestVectors.v) *)
Goal True. test (k <- hex_to_private_key (str "1edc2069350104b5594c602f7967c4b1580f2a757fc9a2745f621868cd333c245ec3c775d730d3c01a2e18f3e5d0b5e767ed3ec77e69732781") ;; ed448_sign shake256 k fox) (hex_to_signature (str "789dd9e1a4471c30cfef1da68076542e6918676424593936dbeb282f5929dcfa3437aef85fd890999ea7a1b16a2c8c3a8cf330c58768789b006b183034ec43acab783039d53fe46f6c39ab29f988a43371d07fe7746a2fd45c660f2a8c441446b8f1cdbfc0787e4cfe69280e5cd7b92d0400")). Qed.

(* goldilocks.rs line 316: test_incorrect_public_key *)
Goal True. test (sig <- hex_to_signature (str "611d178b128095022653965eb0ed3bc8bbea8e7891b5a121a102a5b29bb895770d204354dbbc67c5567186f92cdb58a601397dfe0022e0ce002c1333b6829c37c732fb909501f719df200ceaaa0e0a1533dc22e4c9c999406c071fee2858bc7c76c66d113ff1ac739564d465cd541b0d1e00") ;; k <- hex_to_private_key (str "3761457fcdd53dba3dea5848c43aa54fe468284319f032945a3acb9bd4cd0fa7b7c901d978e9acd9eca43fa5b3c32b648c33dcc3f3169e8081") ;; m <- hex_to_message_hash (str "f092a4af1f2103fe7be067df44370097c444f3bf877783ba56f21cf70ba365a3") ;; ed448_verify shake256 k sig m) (Some (@Err bool error DecodePubkeyError)). Qed.

(* goldilocks.rs line 325: test_zero_public_and_signature *)
Goal True. test (sig <- hex_to_signature (str "000000000000000000000000000000000000000000000000000000000000000000000000000000000000000000000000000000000000000000000000000000000000000000000000000000000000000000000000000000000000000000000000000000000000000000000000000000000000") ;; k <- hex_to_private_key (str "000000000000000000000000000000000000000000000000000000000000000000000000000000000000000000000000000000000000000000") ;; m <- hex_to_message_hash (str "f092a4af1f2103fe7be067df44370097c444f3bf877783ba56f21cf70ba365a3") ;; ed448_verify shake256 k sig m) (Some (@Err bool error InvalidSignatureError)). Qed.

(* lib.rs line 246: test_secret_key_serde (the text between the quotation marks of the JSON string) *)
Goal True. test (k <- secret_from_str (str "010101010101010101010101010101010101010101010101010101010101010101010101010101010101010101010101010101010101010101") ;; Some (secret_serialize (Format true) k)) (Some (str "010101010101010101010101010101010101010101010101010101010101010101010101010101010101010101010101010101010101010101")). Qed.
Goal True. test (k <- secret_from_str (str "010101010101010101010101010101010101010101010101010101010101010101010101010101010101010101010101010101010101010101") ;; secret_deserialize (Format true) (Ok (secret_serialize (Format true) k))) (k <- secret_from_str (str "010101010101010101010101010101010101010101010101010101010101010101010101010101010101010101010101010101010101010101") ;; Some (@Ok _ unit k)). Qed.

(* lib.rs line 259: test_verifying_key_serde (the text between the quotation marks of the JSON string) *)
Goal True. test (k <- verifying_from_str (str "010101010101010101010101010101010101010101010101010101010101010101010101010101010101010101010101010101010101010101") ;; Some (verifying_serialize (Format true) k)) (Some (str "010101010101010101010101010101010101010101010101010101010101010101010101010101010101010101010101010101010101010101")). Qed.
Goal True. test (k <- verifying_from_str (str "010101010101010101010101010101010101010101010101010101010101010101010101010101010101010101010101010101010101010101") ;; verifying_deserialize (Format true) (Ok (verifying_serialize (Format true) k))) (k <- verifying_from_str (str "010101010101010101010101010101010101010101010101010101010101010101010101010101010101010101010101010101010101010101") ;; Some (@Ok _ unit k)). Qed.

(* lib.rs line 272: test_signing_key_serde (the text between the quotation marks of the JSON string) *)
Goal True. test (k <- signing_from_str shake256 (str "010101010101010101010101010101010101010101010101010101010101010101010101010101010101010101010101010101010101010101") ;; Some (signing_serialize (Format true) k)) (Some (str "010101010101010101010101010101010101010101010101010101010101010101010101010101010101010101010101010101010101010101")). Qed.
Goal True. test (k <- signing_from_str shake256 (str "010101010101010101010101010101010101010101010101010101010101010101010101010101010101010101010101010101010101010101") ;; signing_deserialize shake256 (Format true) (Ok (signing_serialize (Format true) k))) (k <- signing_from_str shake256 (str "010101010101010101010101010101010101010101010101010101010101010101010101010101010101010101010101010101010101010101") ;; Some (@Ok _ unit k)). Qed.

(* lib.rs line 285: test_verifying_key_from_bytes *)
Goal True. test (k <- verifying_from_bytes (repeat 1 57) ;; Some (vk_key k)) (Some (repeat 1 57)). Qed.

(* RFC 8032 section 7.4, "Blank" and "1 octet"; not in the crate *)
Goal True. test (k <- hex_to_private_key (str "6c82a562cb808d10d632be89c8513ebf6c929f34ddfa8c9f63c9960ef6e348a3528c8a3fcc2f044e39a3fc5b94492f8f032e7549a20098f95b") ;; ed448_derive_public shake256 k) (hex_to_private_key (str "5fd7449b59b461fd2ce787ec616ad46a1da1342485a70e1f8a0ea75d80e96778edf124769b46c7061bd6783df1e50f6cd1fa1abeafe8256180")). Qed.
Goal True. test (k <- hex_to_private_key (str "6c82a562cb808d10d632be89c8513ebf6c929f34ddfa8c9f63c9960ef6e348a3528c8a3fcc2f044e39a3fc5b94492f8f032e7549a20098f95b") ;; ed448_sign shake256 k []) (hex_to_signature (str "533a37f6bbe457251f023c0d88f976ae2dfb504a843e34d2074fd823d41a591f2b233f034f628281f2fd7a22ddd47d7828c59bd0a21bfd3980ff0d2028d4b18a9df63e006c5d1c2d345b925d8dc00b4104852db99ac5c7cdda8530a113a0f4dbb61149f05a7363268c71d95808ff2e652600")). Qed.
Goal True. test (k <- hex_to_private_key (str "c4eab05d357007c632f3dbb48489924d552b08fe0c353a0d4a1f00acda2c463afbea67c5e8d2877c5e3bc397a659949ef8021e954e0a12274e") ;; ed448_sign shake256 k [3]) (hex_to_signature (str "26b8f91727bd62897af15e41eb43c377efb9c610d48f2335cb0bd0087810f4352541b143c4b981b7e18f62de8ccdf633fc1bf037ab7cd779805e0dbcc0aae1cbcee1afb2e027df36bc04dcecbf154336c19f0af7e0a6472905e799f1953d2a0ff3348ab21aa4adafd1d234441cf807c03a00")). Qed.
