(* Model of /repo/src/decaf_wnaf_table.rs: generated from the Rust text, limb by limb. *)
From Coq Require Import ZArith List.
From Verif Require Import Base Niels.
Import ListNotations.
Open Scope Z_scope.

(* decaf_wnaf_table.rs lines 3-end: DECAF_WNAF_TABLE (32 entries) *)
Definition DECAF_WNAF_TABLE : list niels :=
  [ Niels (BN 0x115acd 0xcfc3259 0x5c7af1b 0x79f0e2a 0xb8d7332 0xdd94605 0x5f5f3f3 0x97dd6c7 0x6156de9 0xd9c59e3 0xcde47d7 0xedfbfd6 0xf67c39a 0x95b97c9 0x587debc 0x7d7b90f)
      (BN 0x115acd 0xcfc3259 0x5c7af1b 0x79f0e2a 0xb8d7332 0xdd94605 0x5f5f3f3 0x17dd6c7 0x6156de8 0xd9c59e3 0xcde47d7 0xedfbfd6 0xf67c39a 0x95b97c9 0x587debc 0xfd7b90f)
      (BN 0xd8ae672 0x1071dd4 0x5f4f174 0x4f14ebe 0x5c34c73 0xe098762 0x2c6f8c1 0x92d0071 0x65e980b 0x9ef4249 0x369764b 0xa8e0cf9 0x7b4d207 0xaa8190 0x4d37924 0xd5002c7)
  ; Niels (BN 0x62b8b17 0xf3c4efe 0xb6add7b 0x1e6acc1 0x5836df5 0x3367ef4 0x7a6ba53 0xefc2d8 0x33964ca 0x405a969 0x16357c6 0x572c2ae 0xa6a7946 0xa9dc34b 0x32ad161 0x151831e)
      (BN 0x2d1774a 0x315f037 0x960e79d 0x7de9ed2 0xc198add 0x8b3d7c4 0xfa57892 0xa5e6a45 0xa80115a 0xf32201a 0xa433a1a 0x7fb9386 0xb291ee6 0xabf6960 0x94ebc2a 0x2d80692)
      (BN 0xae22827 0xfa5e878 0x3963bd0 0xd33c7bb 0x1efac6 0x53401a1 0xbce59a5 0x63df0bc 0xc8b584b 0x7bca269 0x978842c 0x611a8a9 0xa12b8a8 0xbb96e8d 0x1d394d 0xe17844d)
  ; Niels (BN 0xe9b4d0d 0xc107c50 0xfada2f2 0xf6b65a5 0x9353fae 0xbb67e7 0x10ed92d 0x18853f6 0x36d6915 0x8c51f4d 0x6dd1c12 0xe3e9c09 0x6cde415 0x9d6b9ea 0xd66f4c6 0x304864d)
      (BN 0x14085fb 0xf3123b2 0xffb8f53 0xd005baf 0x7dfe6ea 0xd160698 0x73b018d 0xe825edf 0x829a933 0x82aa733 0x7830d76 0xc857d8d 0xcbbe7e6 0xebdb8d2 0x930722e 0x63de0e9)
      (BN 0x35619ab 0x4ffebce 0x43365c5 0xd281a15 0x3d098b8 0xad17eeb 0xbb7806d 0x8653b06 0x4a28b62 0x40026e6 0x2ea19df 0xd9e06d5 0x856876a 0x8e7c684 0x1443f3b 0x3ebbc19)
  ; Niels (BN 0x13b8884 0xc0a0628 0x36e636b 0x54d18cc 0xadba51a 0xe4493fc 0x577c9cf 0x5cda5b6 0x5c315cf 0xcc16561 0x55f17bb 0x1bbd5e1 0x4f18e47 0x4dee92a 0x929bfb8 0x3e95412)
      (BN 0xe1f5fb6 0x15326f3 0x4eb6041 0x76886ca 0xee36c23 0xfb34645 0xb8f7bb2 0x6042a4c 0x403dd2f 0xb43e736 0x6e7c60c 0xa898656 0x4bf6d1 0x10ea489 0x5ddafbe 0x8b5ae8c)
      (BN 0x2faee9a 0x3a9f4a1 0xa29af6b 0xe6ba523 0x8ef06ef 0x1dde79a 0x1647314 0x33ed436 0x76eb1c9 0xb0556ae 0x62bd092 0xe8b8927 0x705e374 0x4709c83 0x6f79b47 0x77382d8)
  ; Niels (BN 0xee4113d 0x6638c5c 0x276ed52 0x5c100c7 0x281768d 0xd10562e 0x1eb2ed9 0x8e851e 0xa7af373 0xd7cc086 0x8eb7942 0x993ed52 0x5b7df14 0x5167762 0x6aaa3f7 0x29fbbcf)
      (BN 0xe396419 0x1081503 0x8870415 0x7a2c7aa 0xaf3490a 0xd372a4b 0x1e18013 0xb18821a 0x6c54211 0xb83fa87 0xa2ae1e9 0xe4bcf47 0xa9bf3c3 0x69a384b 0xee9d468 0xb784d44)
      (BN 0xc2ea1be 0xb4e3ad7 0xcf7008a 0x9962715 0xc089d5e 0xfbc6fdc 0xc349313 0x1e29847 0x9b3874d 0xc114556 0x9a1499b 0x94f5006 0x8f423c8 0x4cec2bb 0x4c34627 0x77eb003)
  ; Niels (BN 0x9b21a44 0x8f00d27 0x9c8116a 0xa5c8114 0xa721e9f 0xcc8be3d 0xe6770b9 0x1935a34 0xd5db99d 0xe315426 0xaff01bf 0xcf6a842 0x16ed3a 0xe3cc9d5 0x98742d 0xae78776)
      (BN 0x197248f 0x68db473 0x2ff90c2 0x89874a1 0x3f5428c 0x420b476 0xfb38392 0xd668b71 0xd3c3687 0x22279b6 0x5cf566 0x3a58014 0x4b4fd44 0x127b8ea 0x208fb79 0xce6a975)
      (BN 0x9d44238 0x797ca03 0x5b6ef5e 0x63cae93 0x72ff87c 0x6a938e0 0x9cdca0 0x6a38703 0x5fa3ddc 0x380094 0x728b5ad 0x32274c0 0x217da91 0x53a51e9 0x12b79db 0x162b417)
  ; Niels (BN 0x768bdc6 0x911f06 0xf82c5b0 0xbd27650 0x7bcb94a 0x7b94801 0x572c65e 0x95de039 0xbe00d25 0x53743da 0x88cd8cd 0x92b1d58 0xb33c0d0 0x65c6496 0x5bfb370 0x7a3f55d)
      (BN 0xfa20d27 0x3f31eeb 0xd6c2849 0xb1c0c84 0x1e53924 0xdbefe8d 0x407ebc2 0x472400b 0x2a91498 0xc584bf6 0x2010650 0xc1f095f 0xc9ba41e 0x7e3b1b2 0x4ed89dc 0x3189f89)
      (BN 0x5de7ab7 0x4d9eefe 0xbdbd884 0x3e35169 0x8822d97 0x79625f5 0x7137c15 0x43f4f60 0x717d455 0x29efd80 0x6623198 0x55b37a6 0x460c01e 0x153cecd 0xe396a2d 0x464f30)
  ; Niels (BN 0x5dc4b6e 0x57b2837 0x7974d80 0x771e655 0xc187316 0xfa6792b 0xf9f92d7 0xd7fed0 0xefdb64b 0xe821281 0x4dc5064 0xa12bf7b 0xfa9bb8d 0x464f56b 0x3114e0b 0x526fa93)
      (BN 0xaaed0f2 0xbcf86d6 0x9e8a71f 0xb95ff67 0x57f8c87 0xc11d7bd 0xd671b05 0xcb3362e 0x2ce4c10 0x68bb14b 0x99af32f 0x5053136 0xec89e51 0x5376e4c 0xd918f75 0x179b292)
      (BN 0x8018aa1 0x246e4ca 0x4eaca63 0x5e55abb 0xfe6aa8b 0x50b6ce5 0x1ee510 0x8979edb 0x8461080 0x2e152c3 0x7f073ea 0x550a03a 0xb811e13 0x18d841e 0xea88479 0xc39e3e1)
  ; Niels (BN 0x64f8cc7 0x7f12643 0xba2d9ad 0x315388 0xa0d3396 0x7562aa0 0xcfe53a 0x69318d2 0x868b277 0xacdcd1 0x518c6b8 0x8e8d738 0xda8f887 0x6faf89f 0x77c4e4d 0x347e302)
      (BN 0x7cddf30 0x62c0356 0x37ac23b 0x32ee534 0x62d80e2 0xe8a6fbf 0x7f7d7fd 0x2de8996 0x4d7c736 0x5fedae 0x264ae39 0x22d685f 0xfba7df5 0x28936d3 0xb936fcc 0xacb4383)
      (BN 0x15c8c25 0xafee552 0x3769fcb 0xc57a871 0xa05928e 0xdf59ac 0x1a57830 0xaead2ce 0x19735cd 0xd453e37 0x4b3ec7e 0x4f1cdc2 0x82a51da 0xe2a694 0x6834b1f 0x151ba7f)
  ; Niels (BN 0x9954173 0x3eaec32 0xee76bb2 0xfec61fe 0x7f7f444 0x9b54434 0xdb8cebd 0x4c4f7df 0xa25dbfb 0x39d610d 0xef26480 0xf513cc 0xb8d2732 0xaf4ddd8 0xd2be04b 0x93756d)
      (BN 0x64f2de 0x6df537f 0xcbfedb9 0x7f0808 0x64aa829 0x792c87b 0xe848ad1 0xfd42b4c 0x6c5bd43 0x4d9b9c6 0x58c4ed6 0xdf8fbdd 0xfc7f34c 0xcbe5355 0x2995e4d 0xabe6eb2)
      (BN 0xd9484e0 0xef8a330 0xce8fbcc 0x44944de 0xd9d2586 0x16b6e52 0x2d2c7b3 0x610b0b7 0x8990f61 0x766d88f 0x494eefe 0xea7bc69 0x9360110 0x50c0798 0xfd96ee7 0xdb9fc3b)
  ; Niels (BN 0x96c6b8 0x69991db 0xd962ba0 0x8ebcee 0x2f37ae3 0xef0053e 0x8c9cb68 0x9917f3c 0xef39f4e 0xe0b52f 0x7b8f008 0xea378bf 0x388995b 0x9ae2a16 0x28ee921 0x7ec77e6)
      (BN 0xce6ad83 0x62284ce 0x7278c56 0xe18536b 0x10698c5 0x5ab4b9 0xa4fd019 0x9910472 0x6d75150 0x8ab4e2c 0x8d59094 0xfbd9d53 0x5914fd9 0x86482b6 0xcabfefd 0xced958a)
      (BN 0x3a8dac4 0xc6cb4ee 0xde0b91 0x10cf712 0x85e9e67 0x1ab1663 0xa89b19c 0x7f2a8ec 0x6b943da 0x8ae3d84 0xb161ed6 0x22c7631 0xe327b23 0x5e5d402 0xaeb64cd 0xd0518c1)
  ; Niels (BN 0xbe55ebb 0xd45c95 0xb911e70 0x5f3dd26 0x65eb066 0x7551710 0x4e644c9 0x110b286 0x2d84e02 0x718a31c 0xc4d65d8 0x59a255f 0x7b14eba 0x26337c9 0x33d128b 0x61e127f)
      (BN 0x4b322 0x6ee9a82 0x3aac2f9 0x3eff483 0x13b9833 0xbb62f8a 0x439b18f 0x8f9deff 0x842de17 0xbc30790 0x4868215 0xbfe23b 0xd09d19a 0xaddb504 0x4a5bd41 0x2e121c0)
      (BN 0xe668677 0x4126ac2 0xa5dbed7 0x46c12e8 0xc049c9a 0x78e3a69 0xfeb5878 0x35d20df 0xf4cbcdc 0xa263e2 0x7e724f5 0x90a6bd 0xb6366f9 0xb33f6e0 0x9f40060 0x175e775)
  ; Niels (BN 0x5838c18 0x83b4b83 0xfc68cb4 0xac69dde 0xf1ba281 0x749b220 0xd7a193d 0x4052a50 0xa4e5e56 0x7138ee3 0xedc8067 0x3099ccf 0xe9aaed9 0x6e811c0 0x8101227 0xbead0cc)
      (BN 0xfcd0517 0xcd3889d 0xd1f43de 0x1bf78dc 0x491727a 0x898cbb 0x893d55d 0x440c964 0x91ea8f2 0x75e0b93 0x87fc960 0xec97326 0x2f86bcf 0x8ca65c6 0xd6debcb 0xfc9b9ae)
      (BN 0x6cfa255 0xf838123 0xd8c8fe3 0xf5999b0 0xa1dff4e 0x918786 0x32db8c1 0xa2fa461 0x379a878 0xeb0a0e8 0x990566a 0x3802d2e 0x7147f1f 0xb6c65d2 0x6bd3e66 0xddbb45f)
  ; Niels (BN 0xee1c67a 0xf68a71 0x29b052c 0xe961024 0x2925329 0x1777648 0x1577df6 0xca322a7 0x79280b5 0x4325b8a 0xd786f77 0xc322234 0x7816ab4 0xe9258fe 0x16d5532 0x6aa915d)
      (BN 0xfd9d30 0xcde1898 0x9350971 0xd1a8288 0xeb0fbc8 0x40d36b7 0x5329dd0 0x3cc6e69 0x8e1d88e 0xe24b331 0x459111d 0xe212a22 0xeaab372 0x879f754 0x489c9a4 0xf9801f5)
      (BN 0x2e00768 0x7354e94 0x3208ac0 0x4c7668d 0xb92023f 0x15712e1 0xb3a760b 0xb018106 0x7fa130b 0xd475164 0x6d78b5a 0xda3f727 0x72bb3b3 0xdc6c716 0x3540963 0x8a6ecb)
  ; Niels (BN 0xc26a6f1 0xe13a624 0x3c0e7d2 0xe161c0e 0x3d354eb 0xba563c1 0xd51498c 0xf7e67a8 0x9742e97 0x88c48bf 0x5c6abcb 0xedaca15 0xc4448b5 0xbb24561 0x38b42f1 0xd045b2c)
      (BN 0x871b4c4 0x93d57b9 0x32e7970 0x85e6b55 0xbdb89e 0x12fdda5 0x6c39b47 0x25f590d 0x39585e6 0xef9d53a 0x575110b 0xcf0a88a 0x894850f 0xfd53552 0x9c5a860 0xbef4702)
      (BN 0x1996dd3 0xbd40f70 0x44b6173 0xcce7470 0xfb55eb3 0x28a6b9f 0x4bd40e3 0x9fea79 0x6ed0198 0x38b30e2 0x8b4cf52 0x5434c96 0xf362d47 0x814878d 0x42b207a 0x60ab548)
  ; Niels (BN 0x479e8ae 0xbd19d97 0x6aff3e9 0xf722fb9 0xcc75c02 0x4ae4a83 0x7a30094 0x33bb682 0xa83cb5a 0xd0ec294 0xcfeefa 0x7c9ad15 0xb336c57 0x33cbbd6 0x7ef1d8f 0x9f0b2fd)
      (BN 0x708c7d9 0x246036b 0x9127116 0x574c8b 0x550414d 0xecd349a 0x186da47 0x3c900c0 0xcac2d00 0x7c82512 0xf99830b 0x1399e41 0xd16fdfb 0xa414712 0x1a9b698 0x2882296)
      (BN 0xc32ae74 0x576abc9 0xb433484 0x52e8eed 0x52551ff 0x9a0b95b 0x5691aff 0xe4e5a4d 0x7dccd79 0xbc01db0 0x51e0d3c 0x9966927 0x9be9606 0x3acf0cd 0x83095a8 0x3f06d2f)
  ; Niels (BN 0xa1ff7bb 0x28c4051 0x904a0ad 0x40ba689 0xacec321 0x9e4b0a5 0xc46aaeb 0xbc6d2b3 0xef88adb 0xf2caae4 0xf11a28e 0xff6677b 0xfbb7484 0x92191cb 0xb78a291 0xdae55af)
      (BN 0x7ea26bc 0xc95aa39 0x66c24c 0x7372e21 0x8ce70 0xd1f1e17 0x6d24ff5 0x277c5b4 0x51cc6f8 0xd0a187e 0xdca3f92 0xe58d524 0xc916355 0xd1a618 0xcfce6eb 0xe5b4a71)
      (BN 0xd853cbd 0xc40cbcb 0x9bd473a 0x523f587 0x8a57ceb 0xfc476ce 0x1a8fc43 0x9e5cb52 0x48e29cc 0x15c1574 0xe0e673d 0x41f2065 0x3e9ca04 0xb922718 0x2da2a1a 0xeadc02)
  ; Niels (BN 0xd8c08f2 0xd6313aa 0x8a39cbf 0x8fbb11d 0x6cfea1d 0xbf09c85 0x24a5516 0xcc74487 0x9ecdeb7 0xeb6e4d5 0x19421c 0x5eda293 0xe457996 0xa0853a9 0xc045530 0xe2a1515)
      (BN 0x3622bf9 0x9cc09c0 0xf1fb5bc 0x18ec007 0xf0d29de 0x9f39168 0xf20e76e 0x5a83280 0xaf9af43 0xdbf95a 0x102397b 0x4f9bd6f 0xb2e86e9 0xe154feb 0xc3d6c54 0x32ea079)
      (BN 0xa1c41ce 0xfab169c 0x1d78d41 0xf1bc0ce 0x1cc67be 0x2fa4e36 0x27e0267 0x9053af4 0x15144f5 0x32387ad 0xf9e66e4 0xb00ae64 0xf82b37a 0x6f6617e 0xc95b59e 0xd8c1db3)
  ; Niels (BN 0xc7799c 0x3517550 0xa225e38 0xa167c5c 0x271c80b 0x854efcf 0xa2fcd01 0x1b76bf0 0xcf4ccd 0x95c9061 0x6a738a8 0x64190fc 0x456ebff 0x79dce31 0x7dc1855 0x742f084)
      (BN 0xe10d3b9 0xf8f4bbb 0x7fe5ef6 0x105a4fd 0x119b520 0x40f473c 0xcbad167 0x75981f4 0xd05858a 0xe6e94e0 0x9323c 0x287e587 0x81a36e6 0x797d31a 0x2def25c 0x33eef62)
      (BN 0x10a5ba5 0x3077e14 0x18390d3 0xb141587 0x630d95f 0x6f256df 0x388a47b 0x21d4d1b 0x3c3ea50 0x8e29fce 0xe8828f 0x2616d81 0xdc76902 0x76b1173 0xe1be552 0x1c4c4bf)
  ; Niels (BN 0xc024d24 0xa2657ca 0x739670f 0xaa33dfb 0x69a8de7 0x93b537 0x8c0514d 0xadafcb2 0x425c381 0xbca8890 0xdcdc343 0x8f15ace 0xb2f9604 0x85efa2b 0x2387955 0x9243729)
      (BN 0x979be8f 0xdfb010d 0xa211f07 0x7e6d963 0x1368699 0x404b8ec 0xcb2087 0xd9cc659 0x389e23c 0xe0d919b 0xcec349f 0x1001c50 0xc709fe4 0x1e848fe 0x26121a1 0xe91e33)
      (BN 0x32c6b13 0xe8300e6 0xf6dda78 0x10847e 0xf200ab7 0x19b7c68 0x978bd9b 0x220c952 0xdc0331c 0x19e887a 0x36c4db5 0x6c5993f 0xb248079 0x2c98ee 0x231d922 0x89ad282)
  ; Niels (BN 0x606614 0x5981183 0xa0d0097 0xa8ec4d8 0x7beaec2 0xe2ac95 0xfdb8ed1 0x7dc4a64 0xf2c7312 0x63b9462 0x55d282b 0x324ea6a 0xdc26507 0x7c8a4cb 0x9268708 0xf54f4ae)
      (BN 0x45ed7bc 0x26d3128 0x8e17918 0x5156388 0xccab084 0xb99c696 0x957f3b8 0x59d7244 0x8c8d6ab 0xc5f4faf 0x4ba3f26 0xbdeeec5 0xc9d5485 0x1aba0f7 0x4b29269 0xd731f78)
      (BN 0x3aef4f0 0xbd7234c 0x5db44b1 0xa7a9f81 0x9fc9785 0xc8c940e 0x3b01c38 0x3b81a97 0xd7b79f9 0xc32ffd7 0xc46e6c6 0xbc5b783 0xef6a5f9 0xb003fb1 0xc2b46e7 0x5b36765)
  ; Niels (BN 0x659a719 0x30b09f9 0xa6bc959 0xac35ad7 0x81c1ee8 0x9b466b2 0x5f80acb 0x34b9646 0x66162b7 0x304970c 0x53e3918 0xf23472 0xac74c5a 0xd54980 0x875468a 0xaaabb0e)
      (BN 0x1bd6085 0x578872f 0x6efa597 0xb3fd4fa 0xf625c00 0xe99ac49 0xe5ed2d8 0x2aef842 0x588e353 0x4b8f706 0xdfcc096 0x449c499 0xbf18dea 0x8d0cddd 0x6396ddd 0xe6bba4a)
      (BN 0x7a2ac73 0x66485d9 0x483ffe7 0x1d0e768 0x1b7251c 0xc525373 0xa3af3f3 0xf76d892 0x85298e7 0xe8d035f 0xabf961a 0x34e58d0 0xccaba4c 0xb11bd0e 0xec9d0e9 0x87a079a)
  ; Niels (BN 0xd2e2026 0xd38488b 0x79dc3fe 0xd35414e 0x1fbbbb9 0xfaa0a1c 0xb10ab45 0x93df0c4 0x1394c9f 0x39ffebe 0xe5cd5c 0xcab0bc8 0x5cadf06 0x453b9db 0xb56f96e 0x3b7c08c)
      (BN 0x7af61ee 0xb63453c 0xa2bd320 0xeadcbaf 0xa7bf0e3 0x86b04f4 0xbbfba5a 0xb69bc8c 0xb1b064e 0xce4926b 0x53e0a27 0x4df8ce7 0x580a3a2 0xff37bf2 0x5a377eb 0xad90c8c)
      (BN 0xbdd6e72 0xac58c82 0x78a79da 0x8035e2 0x2524fb3 0x3c9fcc9 0xea75e47 0xc71c26 0xe717b38 0x9631c4b 0x35e9152 0xa2e9681 0xa131ec2 0x74295c 0xd4a5015 0x877a203)
  ; Niels (BN 0x2be26 0xa49896f 0x20ae906 0xad6b0d7 0xbed0346 0x5786d8d 0x592e372 0xf6749d6 0xfaf79a4 0x542c37 0x5c7863a 0x3281a4f 0xef0cbdc 0xeacdc7d 0xfe160bd 0xca8353e)
      (BN 0xd9f8893 0x3c9e851 0x696dd28 0x4df23c1 0xdb98f95 0x5e587fd 0xadbfdbb 0x359afa5 0x26e687c 0xddb949d 0x285564c 0xebc6efd 0x619bdd3 0x1750eec 0xad0d4fa 0x37772e4)
      (BN 0xbbbb048 0x76e84ba 0x681bbe4 0xa6db83 0x7eaead2 0x59dff59 0x9fe2dab 0xf65bdd7 0xa642c8a 0xe3fc9fa 0xfc634c9 0x8a9cc9d 0x28b1cd4 0x428a4b7 0x3cb6617 0xe80aea5)
  ; Niels (BN 0xf7d2bd3 0x2ab17fd 0x3183393 0x5aa55f2 0xf8c0eb9 0x9b88469 0x14bca6b 0x7d101b3 0x5fd97b9 0x56dd434 0x548ae7d 0x880e62e 0x87b91a6 0x3d44d8c 0x86e22cc 0xfb28113)
      (BN 0x1be3a5 0xeacd580 0xca72940 0x14e1231 0x4987584 0x2245338 0xc37be5c 0x75848f0 0xd82c0b2 0xe6dc40 0x270878c 0xf4d8ec1 0x6fb86fd 0x550981d 0xf4c6892 0xbb66b58)
      (BN 0x57e297f 0xbba772e 0xdf71b07 0x4f56f68 0xaf23a81 0xded9fac 0xd78eedc 0xd78e832 0xff02685 0x4f7c3e 0x1f9c020 0xba5fa93 0xb2295be 0x5a29fb4 0x45b1dc9 0xe2543f7)
  ; Niels (BN 0x52580f9 0x7121776 0x21d1eca 0xe9ee16e 0x75b8e46 0x2465ba 0xfc8ef2e 0xa9cb7b1 0xda1cf8e 0xce337e6 0x507fffa 0x9d3684c 0x5d71214 0x58cc11 0xe144377 0x17dba81)
      (BN 0x7285805 0x3b778e6 0x4ba87b5 0xdbb0670 0xa5ea2fe 0xba6ee1e 0x8b3f699 0xe2cdc2c 0xae69a9c 0x6983c6e 0x2d0c398 0xc6c8c54 0xbcedbdc 0xf2d3a9e 0xabbd31c 0xbe30dde)
      (BN 0x16490a6 0x95f20a0 0x9fbf26d 0x5f2b00b 0x906cdaf 0xb583124 0xa473ca8 0x2e2077a 0x7902fa6 0x18c5b9f 0x29201a6 0xb704f52 0xe4b1c2 0xe1fc5d7 0xccf7289 0x578e366)
  ; Niels (BN 0xe1d579d 0x932127b 0xf54904 0xe6729f5 0x7f618af 0xe70f624 0x9fe9d9c 0xb195398 0xdf69633 0x15032e9 0x5cb6e82 0xd3687b3 0x6869218 0xab0fff8 0xa68ddfb 0x26054a3)
      (BN 0xe899137 0xcf244d2 0xec7aaa1 0xa793f52 0x16e3883 0x2e5cb06 0xf176feb 0x9cbf752 0xfa090a3 0x29edce4 0x60a0275 0xf6540a9 0xef0e3bc 0x513985e 0xf6c7228 0xce2e586)
      (BN 0xdbc757c 0xb42f011 0x4f07c42 0x4a8e19d 0x318b7ff 0xa6d7828 0x9ba3c0f 0x4c9ce4 0x8087b6a 0x5fe7168 0xa3d84ed 0x6e1d8f9 0xe8e9a1f 0x89693e7 0x3ba45c5 0x73bf418)
  ; Niels (BN 0x5530d30 0x29e8ce3 0xf61fe3a 0xd20f389 0xf74e1d4 0xcf9e8dd 0x4d4979 0x4bec01b 0x6fd5ddd 0x7d92c9f 0x1981808 0xc072fa9 0xe8a1676 0x9afda4f 0xe879a14 0xc96522e)
      (BN 0xd83497b 0x5f0cd9c 0x8d97f00 0xe382f09 0x4eed2e 0x73e37e0 0x8b12237 0x707fe9 0xb73d561 0x16d92a2 0xb390165 0xa42926a 0xb1cc8fc 0xb394db4 0xf6efa33 0x2fa14a3)
      (BN 0x13d05ee 0x55076a5 0xcec14ad 0xf076d43 0x252faf4 0xa4e386b 0x9b313eb 0xc0713b7 0x2f46f19 0x507efa7 0x7c66844 0x141bc1e 0x60c19ea 0x5629ef0 0x3d1772c 0x8532711)
  ; Niels (BN 0x8514e35 0xed49010 0xe6b4958 0x6bed897 0xdc546c 0xf2cae 0xe5008e4 0x8175eb3 0xf3aed42 0x93e3fe8 0xfd54d1a 0xe9dbc15 0x4cfc0c1 0x844979a 0x64ea60b 0xea3194d)
      (BN 0xec7ed5c 0xb64d054 0x329fbce 0x7b924cd 0x8737293 0xfe8805a 0x52b43ae 0xfb82f1d 0x72e1a76 0x4ea745c 0x2861c0c 0x95ba255 0x3547784 0xf66846c 0x5dc23c 0x3b815bd)
      (BN 0xd197ef7 0x669e32f 0x5e2f7c9 0x1dfca2c 0x4a1e5e2 0xa2ae096 0x5c91232 0xb4334b1 0x5110d96 0x9641958 0x2172a58 0x9c0b226 0xf6d35ca 0x9d7c87c 0xd3cabf6 0x8a5ce50)
  ; Niels (BN 0xcf73530 0x888b9c1 0x6afecd2 0x375346c 0x35b74d3 0x142240b 0xf86a5f5 0xd952835 0x58eaf9a 0x665c26 0x62b2033 0xf29f430 0x5bc85f9 0xa19a58c 0x724a937 0xe62ac95)
      (BN 0xe9d1730 0x3bedc9a 0x4cbc775 0xfedd7c0 0x540c61d 0xc19abc4 0x57fb687 0x115294c 0x174cd8f 0x663fceb 0x2b885b0 0x1671f57 0xed85978 0x2d14694 0x78a8e44 0x1272820)
      (BN 0xaa72eca 0xe6d2822 0xcdc0058 0xd832957 0xed23e18 0xdc60e5b 0x18b03a3 0xb94b4c4 0x410a430 0xdf3b85d 0xbc79d4 0x55e81b7 0x9cbd1a0 0x81d936 0xcf0c656 0xf7fee3a)
  ; Niels (BN 0xb5abffb 0x3baba41 0xfca8193 0x661ee09 0xe6aea59 0xe0c6c92 0xbcbe591 0x886c207 0x98e8004 0xaef9e77 0xf4d707a 0x164f599 0x76d21f2 0xbb1597a 0xe025626 0xfda82d5)
      (BN 0x9640f0e 0x552b53a 0xf4d88bf 0x5985236 0x65a8ae5 0xb7aaec9 0xb5ccf95 0xcedada7 0x88f1902 0x7b1ea20 0x8b4a7fa 0x28445e3 0xc50efed 0x57f10dd 0x47bc5cb 0x7637a31)
      (BN 0xdb53757 0x8174fe4 0xa35ecc8 0x930c4f4 0x1c95a8f 0xe9f82c 0x7d66e5e 0xc648054 0x9a7bf39 0xdce888f 0x22cb906 0x6671a50 0xb5337a0 0x4823c19 0x7fec529 0x455338b)
  ; Niels (BN 0xdc45964 0x5ac123f 0x2221d17 0x395057c 0xcf84eb1 0x3c09c74 0xbbebf9d 0xb5ca859 0x4a7d235 0x1b26b27 0x8e96a48 0xe8c6350 0x51d721e 0xedbce4d 0x97d6f83 0xc494367)
      (BN 0x88a7f40 0x71595be 0x1c0fc87 0xa05e6ac 0x38b29eb 0xa01bf65 0xb881fb8 0xbadcd80 0x8049f8b 0x5bfe7af 0xae35537 0x84918e6 0x759316e 0xed4bd54 0x8d6b548 0x7f13598)
      (BN 0x1e06629 0x75656c4 0x3396637 0x86059d8 0xb457b37 0x4f304ec 0xdb6be65 0xe3b4887 0x63bb0be 0x20b54c2 0x3e561c3 0x60a6919 0xdc8ce9 0xe6863f2 0x56e6478 0xafe16ac) ].
