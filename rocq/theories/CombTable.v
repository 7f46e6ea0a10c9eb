(* Model of /repo/src/decaf_combs_32.rs: generated from the Rust text, limb by limb. *)
From Coq Require Import ZArith List.
From Verif Require Import Base Niels.
Import ListNotations.
Open Scope Z_scope.

(* decaf_combs_32.rs lines 17-1459: DECAF_PRECOMP_TABLE.base (80 entries) *)
Definition comb_base : list niels :=
  [ Niels (BN 0x7278dc5 0xe614a9f 0x4c5124 0x2e454ad 0xe1436f3 0xd8f58ce 0xe4180ec 0xc83ed46 0x74a38fa 0xa41e932 0x257771e 0xc1e7e53 0x3c0392f 0x43e0ff0 0x5ce61df 0x2c7c640)
      (BN 0xc990b33 0x33c4f9d 0xceb55c3 0xc291cb1 0xade88b2 0x2ae3f58 0x1395474 0x6b1f9f1 0xb27ff7c 0x2ded6e4 0x4aa10e1 0x41012ed 0xa36bae7 0x3c22d20 0xd472b19 0x1f584ee)
      (BN 0x9ee6f60 0xc351477 0x3b20c2b 0x1574c87 0xa5a5e65 0x4cd6a46 0xeb4204a 0x59a068a 0x8bc354d 0x4c61045 0x79d02d2 0xe945674 0xd118e28 0xfeaf77e 0x115eeb5 0xf58a8bf)
  ; Niels (BN 0x8fcb20f 0x4611087 0x1cc6f32 0xdf43db2 0x4516644 0xffdde9f 0x91686b9 0x5199177 0xfd34473 0xb72b441 0xcb1c72b 0x8d45684 0xfc17a5 0x1518137 0x7f74d3 0xa456d13)
      (BN 0x9b607dc 0x1430f14 0x16715fc 0xe992ccd 0xa32a09 0xa62209b 0xc26b8e4 0xb889ced 0xac109cf 0x59bf9a3 0xb7feac2 0x6871bb3 0xd9a0e6b 0xf4a4d5f 0xcd69a5 0xb95db46)
      (BN 0x8bda702 0x3630441 0x1561558 0x7bc5686 0xe30416f 0xf344bc8 0x80f59d7 0xa645370 0x7d00ace 0xb4c2007 0xb26f8cc 0xee79620 0xb5403d 0xa6a558e 0x66f3d19 0x8f1d2c7)
  ; Niels (BN 0x97d3112 0xef21c02 0x27c35b1 0x73f89bd 0x1ff5e33 0xec44f9b 0x878f1ee 0x6bee51d 0x2aceddb 0x1571a4b 0x55131d1 0xcd0182d 0xc1844be 0x26761db 0xf716474 0xf01865a)
      (BN 0xf5fe8cc 0x21dfef3 0xd1dbd68 0x38c659e 0xcebe283 0x58ded9b 0x94983ee 0x77bbb0 0x913d70c 0xb7b484e 0x9506397 0x63e477a 0x6e01629 0xb996a 0xf75cd37 0xab68b41)
      (BN 0x6403a4e 0xa1fbd94 0xd611b05 0xbe5a4e2 0x888bc6e 0xea4f210 0xae50fe 0x43e9b0e 0xbd86845 0x2abc4f6 0xc67f663 0xc3ed649 0x1a520e7 0xd4eeb39 0xbfe7584 0x4b19cf1)
  ; Niels (BN 0xf22999e 0x99a75e6 0xc79f659 0x1f16454 0xfddc812 0xd776a37 0xb6b0a78 0x95fdd63 0x366e947 0xd232169 0x21e9de7 0x2ea77dd 0x5f97a90 0xe8c46e8 0x51f8cd9 0x3587586)
      (BN 0x6a07bdf 0x2b6f503 0xf3e2646 0x4f6940a 0x8986799 0x866028f 0xcb50415 0x838b26c 0x7f00b11 0x1055741 0x447e96b 0x8a3b6bc 0x5e9e0c9 0x3de3d03 0xb6d4011 0x188fca2)
      (BN 0x635312b 0x1ca4038 0x1e01c44 0x78dc75c 0xb3100a4 0x4340f00 0xbf6646e 0x5e63e36 0xb624688 0x8e1efd4 0xb1525e1 0xa61c2ff 0x5a75b81 0x7258750 0xd96e78 0xa863714)
  ; Niels (BN 0xfac8a41 0x4a7c41f 0x5b1c20b 0x5bf3707 0xa42408 0xc053b57 0x8d328e7 0x2bb7e27 0x3245100 0xb2378b6 0xa1a368a 0x3318bf2 0xdbe02de 0xf4e3e0b 0xb1e32f8 0x58921e4)
      (BN 0xa1118a0 0x5e93d6f 0x5d381e2 0x62b4351 0x52e620 0x2c42864 0xe6ccbd3 0xaf258ba 0x94d654d 0x9542470 0xb010810 0x5db01f5 0xefa8204 0x9c8cf25 0x3714ef7 0x5f73ced)
      (BN 0xf2cf49d 0x85f89af 0x480f6f0 0xf591ee8 0x8114265 0x378ed51 0x2a09008 0xf04293e 0xb9140ed 0xc58688d 0x6399ff1 0xe991269 0x6367413 0x55bd1b9 0x830f999 0x23a70cf)
  ; Niels (BN 0x944584e 0x1c83772 0xe472bcc 0xc1ba881 0xaef13f 0xaf2715a 0x25610a6 0xbd0360d 0xeebebde 0xc42f8b3 0x49788b1 0xa9e4748 0x2efec5c 0xdcd1a1a 0xc2818c0 0x9480d34)
      (BN 0xa565d74 0xb4b6e09 0x175aa48 0x95efcf6 0x7ae7810 0x498defe 0xed26470 0x309b684 0x91d4e44 0x7a8873a 0x57eb27a 0xea4b3f8 0x9d25a9e 0x979b861 0xeeb6e9 0x721a277)
      (BN 0x4be195f 0xb422f0f 0x3bfa2db 0xe88cfa8 0x6ea4268 0x9fd6066 0x5e801d0 0x95a458f 0x82081f6 0xb9eee68 0x7604948 0xb27edb3 0xd44d8db 0xa7f67c4 0xf290c01 0xdf840cc)
  ; Niels (BN 0x47c9103 0xc9fed0d 0x294a043 0xba73ed9 0x8e652e1 0x5cbbc92 0x8ee8215 0x68419e9 0x786300b 0xf63de63 0xc19f8aa 0x9aa9bb6 0x573213f 0x66c536b 0xb2f2450 0xd2b77a5)
      (BN 0x68d5b74 0x810236c 0x872a011 0xd0a1af1 0x9e3801a 0x7f23ee2 0x8f8dba4 0x9a55a67 0xff9be40 0x65445dc 0x9a9abc5 0xf397878 0xd23f5e8 0x1f010 0x934b0c5 0xff80042)
      (BN 0xb3f9745 0xa6749f4 0x180e502 0x3ab85f4 0x530ed50 0x6a7de9b 0xb0441bf 0x50b5353 0xac6ede4 0xa093583 0x1406299 0xc4918ad 0xa353a2b 0xf75cf2 0x683a56 0x1c6644a)
  ; Niels (BN 0x6c09bfe 0xe869415 0xd17ad96 0xf6f3a5b 0x5edad12 0x98dbed4 0x4921821 0xedfe2b8 0x199b67 0x9788433 0x85b3e9e 0x4aab026 0x2453c30 0x68ac0bd 0xc87d8f5 0x167c1c1)
      (BN 0xf63f599 0x8bba5fb 0xc7d63f 0x59a3c96 0xb08b7d9 0xce2db75 0x2104171 0x97e80cb 0x6a140d0 0x9b68be2 0x4e94c68 0x2b9b995 0xc411beb 0x23ca8f 0xcbada07 0xcbc4bcc)
      (BN 0x77b678d 0x53c100e 0xfa96f 0xf115c4 0xe22afa2 0x5928d3d 0xdbdbe96 0xe47cd9b 0x84abf19 0x597ecfe 0xe4c7a32 0x58bb428 0x6ecf584 0xdd582f7 0x5eccb79 0xb121136)
  ; Niels (BN 0xa58e68 0xdbfb9a0 0x350d82f 0x4468189 0x7ee92c6 0xb4b1240 0x8f73455 0xe27a790 0x71b5ae 0xf071170 0xba229dd 0x221a5e6 0x6a81f83 0x1903e3f 0x402775f 0xbe36325)
      (BN 0xe691756 0x4d298d6 0xfce310b 0x775644d 0x823ea98 0xa861887 0x4fa6e6f 0xcf0b601 0x380826f 0x5f4e296 0x2627f90 0xbf42339 0x8122f6a 0x2893bfc 0x9bea228 0x440dbc8)
      (BN 0xa4ab73 0xacbb4f4 0x8fa3366 0xd6a82f4 0xc6faac2 0xa7958f 0xa7c33c 0x8a4cdd6 0xd8b6f1a 0x5e5587d 0x86a88e8 0xe40f630 0xbcda0ad 0x30940cb 0xc35c130 0x9a42e3d)
  ; Niels (BN 0xad825f1 0xd37716c 0xba9552a 0x883870c 0x5c762e3 0x8ef785f 0x469242 0x6cb253e 0xee9d967 0x7b8f17f 0x32b52b6 0xa43de69 0x2af783c 0x1aca9fe 0xff0b680 0x8967778)
      (BN 0xdc6c9c3 0x6400c4c 0x691083f 0x1e8c978 0xf68e0c5 0xad74f01 0x72b5f6a 0xf7feb03 0x5ade13a 0x2f60d17 0x221a678 0x98ec54a 0x71f244e 0xfcfea8a 0xe45ded2 0xdea6660)
      (BN 0xa8d6752 0x2585b4a 0x15a2089 0xe62da76 0x1f39b68 0x10c1c74 0xced9f65 0x569bb1e 0x4daa724 0xba6d09e 0xef281b9 0x7d3e20a 0xca3ffdc 0xbd7f65a 0x50288a8 0xdea434a)
  ; Niels (BN 0x489170f 0x7ba92a2 0x4d31e9c 0xcd35635 0x6e5430 0xa60d474 0xe8ed877 0x9c3d5fd 0xdd08d1 0x79eaa5 0x93ffa5f 0x24674d5 0x596c53b 0x5391be9 0x50acdd9 0x856ca8d)
      (BN 0x5e5bdec 0xd4620aa 0x9b5d941 0x2303c4b 0x57ebb2a 0x3b061f8 0x56d49fd 0x371f9e8 0x335051e 0x71c36c5 0xa4d359f 0x40e4346 0x59ec40c 0xb31dbd9 0x71bf6de 0xd99353a)
      (BN 0xf0f21dd 0x78898ad 0xdd8604a 0x6e09bfe 0xf9bb666 0xefaf0e0 0xb8852c3 0xb0f685d 0x566b841 0x94c86ec 0xba50dbe 0xe5c2879 0x4cff758 0xa87cd44 0x47f23df 0xd3e26fd)
  ; Niels (BN 0xb1854f8 0xb82c07f 0x6fad9f 0x57f654a 0x250cf92 0x4c00383 0xd291af6 0x8b91713 0x77859b9 0x2f25217 0x21f22c8 0x5331114 0xfab9794 0x643da86 0x80e3d40 0xdc7fb06)
      (BN 0xe87788 0xe59ffd4 0x55a50af 0x6431e97 0xfb580a 0xa03ce70 0xa3c9b9e 0xad7e70a 0xb4db503 0x78970a2 0x849637a 0xc800451 0x49e123f 0xe7e6a5b 0x77bcb4d 0xe1ed15f)
      (BN 0xaf47f28 0xbc1d1d1 0xbbd81f0 0xebc5501 0x3547aa4 0xaa6b551 0x51343fe 0x74ed335 0xef7d43b 0xd2114f6 0xd518aeb 0x6335b41 0x9692fb8 0xebd4691 0x3fada95 0x52d5d4e)
  ; Niels (BN 0x89799a4 0xebfc9f4 0x6980688 0x497535b 0x9e6a51b 0xfef7649 0xe7a18da 0x18eedd 0x72b69c7 0xf435d9e 0x8281675 0x5ab0faa 0xe290be8 0x3232d06 0xbe0286c 0x5473ec8)
      (BN 0xebb4874 0xc6eb0d0 0x4119097 0x856a227 0x29e3719 0x380bc7b 0xf0e424d 0xb1ae149 0x5b9de26 0x9b4185 0x3d0f53f 0x9868401 0xc38a6ff 0x82e8554 0x353743a 0xe76c18c)
      (BN 0xe1ab61f 0x8da1194 0x9688805 0x8edb5f8 0x2f851bd 0xf497025 0x2b6ad20 0x7a46f63 0x7e9f90a 0x6d2d1c3 0x53f665f 0x60dd093 0xd86657 0xa625a8 0xedd0888 0xf93f6f)
  ; Niels (BN 0x1992fb4 0x3b019b3 0x1f64c28 0x4f6a2ad 0x4e5c571 0x8a74413 0x2f9af3f 0xca3317 0xa67bb8b 0xd478755 0x8abb223 0x9d1f5c4 0x12ee901 0x4da4d6f 0x1f4140d 0x84f0954)
      (BN 0x5cacd43 0x31f412f 0xdd20e94 0xe5afb75 0x452740e 0x1ce24b3 0xdf30ff1 0x176d6de 0x64fffca 0x82e22e5 0x7097f 0x1d56fbe 0x51a6918 0x95b37c8 0x97f8f4c 0x8ec50ef)
      (BN 0x2251f57 0x7e2b1c5 0x9380033 0xcbef37c 0x761bceb 0x37ed652 0xc6dd232 0xf1c2a5d 0xd63ce0b 0x26e1b90 0x173a6b8 0x938d732 0x5da993f 0xd439aa4 0xeaccef7 0xd356b8d)
  ; Niels (BN 0xf56c67d 0xed32377 0xe32e4a7 0xc3b6a4d 0xdd5d91 0x481a36c 0x466ba7 0xbb557d2 0x200163e 0x645f6d3 0xdf7c48c 0x5eb4c54 0x8f1e3b4 0xfd8e3d0 0xf099147 0x1156353)
      (BN 0x89b2756 0xae1b4c0 0x916fb5f 0xe686d2b 0x2437dd8 0x7ac43ec 0xe860ed2 0xf7bfdf7 0xb786dc9 0x97dbcb8 0x1c8b2f 0xec7a904 0x7989bdb 0x425ed01 0xa6d914d 0x444bc9c)
      (BN 0xb53ab7f 0xe5e7b83 0xca44fc5 0x4e4bed6 0x7c40d4d 0x8bd7a6 0xa4a2f0e 0x9dbec74 0xfc2c73f 0x77df3f4 0xe73ea8d 0x46b1af5 0x7be8670 0x9f096cb 0x929141d 0x3ad0a29)
  ; Niels (BN 0x2e9b2e1 0x991a122 0x1d7dc7 0xbe75839 0x169d3da 0xfd1d0c8 0xa68acf9 0xfe0a94 0xafc78a2 0xb77bd05 0x7f87ebc 0xa84f169 0xb0c2ecb 0x97cfd 0x352ed1b 0x7d51d70)
      (BN 0x643159 0x25dc2a6 0x85f95b4 0x1f0d8ff 0xc598a73 0xed74a4b 0xf0574a9 0xf30afe6 0x5d4d28c 0x378854 0xd120ac0 0x9dc410a 0xe69961d 0x1950947 0xb0355b0 0x1ceb23c)
      (BN 0xed9f1bd 0xee2202d 0x658976d 0x2fa4fce 0x9716470 0xe7c15bc 0xd500369 0x4f7ea99 0x8318376 0x4b995a1 0xaf91911 0x246c4f8 0xd09dbfe 0xcc77a07 0x1364be6 0x7906f6f)
  ; Niels (BN 0x84da36e 0x3c97e63 0xac81a09 0x423d53e 0x3cdce35 0xb70d68f 0x354b92c 0xee7959b 0x819c8ca 0xf4e9718 0xacbffe9 0x9349f12 0x2cb7da6 0x5aee7b6 0x54ffc86 0xd977641)
      (BN 0xfcb435a 0xd95d1c5 0xb5086f9 0x16d1ed6 0x7e54d71 0x792aa0b 0x5f1925d 0x67b6571 0xec6176b 0xa219755 0xb12c28f 0xbc3f026 0xffeb93e 0x700c897 0xec50b46 0x89b83f6)
      (BN 0x544b923 0xad9cdb4 0x7284061 0xd11664c 0xb8f910b 0x815ae86 0x591c3c6 0x5414fb2 0x2d7ef9e 0x94ba83e 0x599386c 0x1dbc16 0x493911b 0xc8721f0 0x63c346c 0xc1be6b4)
  ; Niels (BN 0x111ed3b 0x79680ce 0x806122c 0x1a1ed82 0x6d15df3 0xc2e746 0xf7150fd 0x2c407f6 0xb1b0ce3 0xc5e7c96 0x6863ff9 0x9aa4462 0xb80be42 0x887b8b5 0xc964825 0xb6023ce)
      (BN 0xca2292 0xfed3cd8 0x73ca613 0x15b043a 0xf9be227 0xa9fd7b 0xe2db983 0x3b5e03d 0x6904ef7 0x5af72d4 0x49faa99 0xc0f1b5c 0xbd305e1 0xdc86fc3 0x1cb1797 0xc92f08c)
      (BN 0xb768f37 0x1b571ef 0x7cf5cfd 0x9d77848 0x27ebfd4 0x430e373 0x5970a41 0xa92447e 0xc0edbac 0xeb13127 0xefeaf20 0xec61e5a 0x57d2e5c 0x447eebf 0x550e558 0xf01433e)
  ; Niels (BN 0x7fc6860 0x39dd7ce 0x5653da1 0xd64f642 0xf57d0af 0x3e037c7 0x6e2bcf2 0x63477a0 0x7ac67e6 0x1727dbb 0xefafe2e 0x49589f5 0xe813d54 0xfc0fef2 0x87fb50d 0x8baa5d0)
      (BN 0x8238159 0xa752795 0x7a84cd6 0x13ec953 0xd562525 0x1d7fee7 0x191d5e5 0xb9eefa6 0x70bcb8a 0xdbc97db 0x7a4d395 0x481affc 0x70c31bb 0x6f73d3e 0xed96a61 0x183f324)
      (BN 0x64ba838 0xdb04a62 0xfddc1b3 0x582b1f9 0xaaa027f 0x3ee72e4 0x8cd0dd5 0x7d1de93 0xcf76afa 0x32d5d66 0x95c1ec2 0xc9c717c 0x764b8d6 0xf27aa11 0xb7ef36e 0x713a482)
  ; Niels (BN 0x5f2b66f 0xece96f9 0x813a27b 0xece7952 0x92e489e 0x26fc365 0x2de0f66 0x7157d1a 0x1d86ddf 0x759dc11 0x780bb0f 0x12881e5 0xad29496 0xc8ccc83 0x929eb71 0x12b9bd1)
      (BN 0xd65cdfd 0x1bf51f7 0xa16a97d 0xd14cdaf 0xfcd10e7 0x2c38e60 0x393efbd 0xa27446e 0x6a71fdd 0xb5d894 0xe128f2f 0x63df2cd 0x69b1888 0x6c86795 0x25d732d 0x59ffc49)
      (BN 0xf25a20f 0xf05ea5d 0x5b932ce 0xcb6224e 0xe2718d9 0xd3aed52 0x996ce72 0xfb89ee0 0xa6e1e80 0x6197045 0x57fc6f9 0xbcdf200 0x6ae5c2c 0x59bf78b 0x7455db0 0x49cacb8)
  ; Niels (BN 0xf75c0c 0x6a15bb2 0x27a5d0c 0x79a1440 0xe0b4d70 0xd19116c 0xb0b268e 0x59b83bc 0xf16c127 0x5f58f63 0x8ee2c37 0x7995831 0x3d07f82 0xdefbb06 0x1d2d446 0xf1f0b93)
      (BN 0xd333 0x9696510 0xbc04826 0xec2f788 0x1f67ba5 0xe4d02b 0xace08b6 0x659aa8d 0xa3ae533 0xd7a38a3 0xa8c746b 0x8856def 0x2d3da1a 0x4d7a440 0x229260f 0xea82e06)
      (BN 0x3ca2bdd 0x34a1b3c 0x5bca880 0x72077a3 0x35c1b8e 0x5af4e9 0xe8b7737 0xa5f1a71 0x92cb2e5 0x4d31332 0xca1c916 0xfe2a2d 0x41935bb 0x24d181b 0xca0332 0xd9f5488)
  ; Niels (BN 0xbfeae96 0x9ffd90a 0x624a516 0xcba3c2b 0xee46c91 0x5ef08bc 0xafb6185 0xe6fde30 0xf818ce4 0xf0b4db4 0xd2127f5 0x6c54f45 0x35854c7 0x401250 0x3287e13 0x372658a)
      (BN 0xaac61d5 0x6f6fd9b 0x20a895 0x2a7710a 0xfc03d4d 0x9de0db7 0x875f40b 0xcdedcb1 0xb6b1e22 0x50caf9 0x4456ab0 0x5e3a665 0xc4423d4 0x775fdf8 0x5738b5d 0x28701ea)
      (BN 0xe414d54 0x28f8f04 0x56c7694 0x87037ba 0xd0ddb59 0x976b5b4 0xd462421 0xa4227e6 0x8b4c560 0x4c77c67 0xfb485a8 0x6c9e74 0x2d3981 0xc1c138a 0x3d6b6b5 0x40a1940)
  ; Niels (BN 0x9400888 0x45e8dda 0xfc05db7 0x2ff12e5 0x4afe69c 0xa7098d5 0xa500585 0xcdbe846 0x3ca1882 0x879c159 0xa76c8b0 0x3f7a7fe 0xc8e0a1 0x2cd73dd 0x96f51fe 0x645d6ce)
      (BN 0xbba2aa5 0xf19224e 0x58e694d 0x74f89d3 0x97135ad 0xeea4865 0x555c7e1 0x81579a4 0x2930a9d 0x10b9b87 0xa30ecc0 0xf002e87 0x6de56e2 0x9b9d66b 0xe8004eb 0xa3c4f45)
      (BN 0xedc2929 0xd4817c1 0x8be637f 0xc67cb90 0xa6bfe9c 0xbd6dd1a 0xfe7795c 0xa1803a9 0x1e2cefb 0x1770d31 0xa0d1c88 0x18054ec 0x240f212 0x4fa667b 0x55a447 0xf631f7f)
  ; Niels (BN 0x2a59286 0xf89335c 0x5d55141 0xa0f5c90 0x6ee9382 0xb41fb83 0x730ca43 0xe235d51 0x5c0a69a 0xa5cb37b 0xe136c45 0x9b966ff 0xbf80ed1 0xcb2ea10 0xb40dc35 0xfb2b370)
      (BN 0x7758979 0x85e78af 0x1631a3a 0x275a4ee 0xd78b683 0xd26bc0e 0xa21064f 0x4f8355e 0x32696e5 0xd618e1a 0x50e5680 0x8d8d7b1 0x4b278d2 0xa74cd85 0x2203ea0 0x1dd6270)
      (BN 0x2b11745 0x29782e9 0x2f96200 0x8eadf42 0x2cdcaa2 0x217a39f 0x9aefd0b 0x782d1ca 0x7203654 0x321c6e4 0x20101a 0x1e72961 0xe6ab16e 0xb562fa6 0x4af111a 0x5c9227)
  ; Niels (BN 0x11f470 0x6bc3d53 0x92b83e8 0x32d6e6 0x497cd0b 0x59722f 0xc497cc 0x9b4e6f 0x7cce6c0 0x58a804b 0x2bbd5d 0x2b71d33 0x6765fce 0xe2f82a3 0x524c703 0x8dded99)
      (BN 0x9a865f7 0x2e78874 0x16861ea 0x6e4dc31 0x37276e6 0x9f1428c 0xc1e1226 0xe7d2e0f 0xb6c45f6 0x3aeebc6 0xbf500c9 0x71a8073 0x86b530c 0x4b22ad9 0xc0d79d4 0xf439e63)
      (BN 0xc8b829b 0xb2fa76a 0x1865590 0x8fe6bf0 0xe389f40 0x59df538 0xeea748a 0x6acd49e 0xb990cfe 0xab81280 0xc57bfe5 0xc34a54a 0x731cedf 0x3889ce9 0x1b4654d 0x81b71cc)
  ; Niels (BN 0xafa46dc 0x2f194ea 0xfe87613 0x8e38f57 0x25f4ab2 0xdc8e5ae 0x575e6bd 0xa17809 0x3ba366a 0xd3ec792 0xad75e3 0x3a7e72e 0x8436e0a 0x10024b8 0x4b64051 0xed3c544)
      (BN 0xbf3c738 0x1b2fc57 0x993fb80 0x6a3f918 0xfdec288 0x26f7a14 0xcef08db 0x75a2cdc 0xeecdbf1 0xd3ecbc9 0x6e5bf7f 0x48c40f0 0x9896b 0xd63e423 0x9c056a8 0x598bc9)
      (BN 0xbf50cbd 0x7ce03ec 0x6b992ca 0x369ba99 0x3a5f7f0 0x896d4b3 0x536da60 0x602b5b8 0x2ba6d73 0xe112208 0x3ba0d74 0xc3fbb90 0x5c1daf8 0xd3f8ec5 0xa0f0be1 0x6a8f96c)
  ; Niels (BN 0x5c45509 0x1fb7347 0xa43345a 0xd2b2e5e 0x2077bd1 0xcb3c384 0x820946e 0x29f90ad 0x80778aa 0x7c11b23 0x62c1704 0x9e54ece 0x1ca01c3 0x4bc60c4 0xa5a0b03 0x4525679)
      (BN 0x90ec6d8 0x766ae41 0xbc71380 0x65768ca 0x416cdc2 0xb902598 0xd38df52 0x380021a 0x6551134 0x8f0b89d 0xc62c5a5 0x4254d4c 0x84b9b94 0xd79f44 0xae3c50e 0xb516732)
      (BN 0x412784c 0x39b0422 0xe8ce055 0xbf9fe2e 0x4906298 0x63ddb8a 0x178a0ea 0xdb48625 0xfd3c4e 0x9e9012c 0x950d2c4 0xff30c60 0x5565977 0x3b9453f 0xff25dfb 0x54dc1d7)
  ; Niels (BN 0xa346148 0x17085f4 0x7f62272 0xc7cf7a3 0x9bc5c30 0x1776e12 0xc9eef2a 0x9955134 0x1df07be 0x1ba5bdf 0x103a55c 0xec39497 0xfda6cfb 0x6578354 0xd4f15ee 0x5f02719)
      (BN 0x17632b0 0xb3a376 0xe1cfb6c 0x597199f 0xfeafdd6 0x42a7ccd 0xebcea17 0x4cc9f15 0x6a6b4a4 0xf436e59 0x42df0d8 0x1688611 0xec26af5 0x753edf 0xe388116 0xc495d7)
      (BN 0xa269aa2 0xad46264 0xe4b9e3c 0x2b13845 0x8b0d7f4 0x6a20b6 0xee514ae 0xc271a35 0xa58f4d8 0x2b67e14 0x99a60d6 0xf5065b0 0x90514bc 0xba6737b 0xc5b898f 0xb6265e7)
  ; Niels (BN 0x9e7d065 0xb60167d 0x7381e8 0xe60ba0d 0x725c2d4 0x3a4f17b 0x76b64fa 0x6c19fe1 0xaf86ccb 0x3b57b31 0x86180fd 0x21047c2 0xc6dbb6 0xbdc8fb0 0xbab4f3f 0xfe4a9f4)
      (BN 0xdcb3f1f 0xa72d23 0x4011727 0xa3737f8 0xbbf4a47 0xf870c0f 0x4b5c9ca 0xa7aadd0 0x67bd072 0xc7715c 0xafcd74e 0x15a136 0xa499634 0x80d5cae 0xc7514b7 0x26b448e)
      (BN 0xe9eee08 0x77003c5 0xba2f437 0x6eaa1bd 0xdfa8d2a 0x7ae297d 0x1aeb2d6 0xaa8531e 0x626efdc 0xce283cc 0xd153115 0xefe2f51 0x7c84995 0xdb954c0 0x7e00acf 0x2ade92c)
  ; Niels (BN 0x8dc136a 0xa629521 0xe9c012 0x563b3af 0x145db1b 0xd3753b0 0xc043dc1 0x4550389 0x7401bdf 0xea94ae2 0xf2b7956 0x2b0b949 0xad8e23c 0xc63f780 0xd6bab15 0xe591c47)
      (BN 0x5f36dae 0x57e7ea3 0x15de22e 0xf47d7ad 0xb105115 0xd757ea4 0xd579d7e 0x8311457 0x1edd4eb 0xb49b75b 0x42fd63a 0x81c7ff7 0x7433df6 0xddda318 0x55f9c66 0x475727d)
      (BN 0x4fa7149 0xbe93a7d 0x4d3396a 0xbef825a 0x951139b 0x4c32daa 0x981a85e 0x3f4be7d 0xa8642d0 0xe866d6c 0x6f1b2f8 0xb912bba 0xc9cf5e1 0xe28ba64 0x4996955 0x3950457)
  ; Niels (BN 0xc607674 0x2419222 0x89188b3 0xa7f23af 0x4e73d1c 0xad12728 0xfae1c51 0x8bba582 0xa9ecab1 0xfc6aa7c 0xeb6c2ba 0x3df5319 0xa8b199a 0x2a05af8 0x558407c 0x4bf8354)
      (BN 0x26da3f8 0x8d6009b 0xa06b1ca 0x898e88c 0xed7fe62 0xedb22b2 0x6aabe80 0xfbc9351 0xc42ce0d 0x8b4b470 0x7d0dcbb 0xe0032ba 0x956ecc8 0xd76da3a 0x4e3852a 0x7f20fe7)
      (BN 0xf0f0340 0x3182b5c 0x9d60fc2 0x2fd3d8d 0x8bff43d 0xb73ffe0 0xfee6a72 0xd3dec97 0x6e16949 0x675aafc 0xc6f0c86 0xd27f499 0x9f3387a 0xe057878 0xb49ec2a 0xe52031a)
  ; Niels (BN 0x4f9f8de 0x6b7a067 0xe5c7cff 0xa742414 0x6e13221 0x41cbf3c 0x207af24 0xe3a64fd 0x5fbe8d1 0x87c05f1 0xd9e8a33 0x4c50936 0x1042b6d 0x1306ec2 0xd1141c2 0xa4f4137)
      (BN 0x1fa2523 0x1ed4dc7 0x9bf9b5c 0x5d0bff1 0xe065a64 0xc3801ce 0x4323fbf 0x1ed0b50 0xcbbc593 0x3ab9fd 0x178b8d2 0xdf82070 0xc251f85 0xa2bcaa9 0x74bd02e 0xc628a36)
      (BN 0xdea974f 0xf619046 0xfde6ee7 0x4c39fed 0xf22afc5 0xd593cb9 0xe9ab4ab 0x624e10e 0x41869fd 0x9c1b40f 0x4da6d46 0x98f2cb4 0x3becf31 0x2311d09 0x71880ab 0x4d97d17)
  ; Niels (BN 0xdd1add 0xddbe075 0x85844b8 0x4b3c7b8 0xf12f1ae 0x363e7ec 0x6438f9d 0x62e953e 0x76afe9 0x23cc73b 0x3b4da32 0xb09fa08 0x56c541d 0xc7c3d24 0x6b694d4 0x5b591ec)
      (BN 0xda135ab 0xd5b4b3 0x64d81d 0x838f3e5 0xf6d94ed 0xd44eb50 0x502ac6d 0x8931ab 0xa3d3586 0xdebe01c 0x75f0641 0x25c2067 0xe912763 0x5ad4b6a 0xad8f247 0x7e2c318)
      (BN 0x629d030 0xd79a91e 0xc20eb72 0xad5b50f 0x22eb1bd 0xedd89a2 0xb098ea8 0xddad6f 0x49c90c4 0xb8be69a 0x9ecd346 0x9bbe2d6 0x6a95a48 0xa1def90 0x6d2cca3 0xdb8fd6a)
  ; Niels (BN 0xc1f1ac1 0xc41d1f9 0x9f19146 0x7b2df4e 0xfd5ba7a 0xb469355 0xafc852a 0xb5e1965 0xe2d8217 0x388d5f1 0xc09ae93 0x22079e4 0xd4ef518 0x14268ac 0x640464c 0xc1dd8d9)
      (BN 0xb92f894 0x3fe038e 0x72e8e32 0xe6da1b 0xfcbe0fa 0x3a1411b 0x164a9e4 0xb55d473 0xc2df48d 0xb9a775a 0x659e21 0x2ddf35 0xeb19cb3 0xa279a69 0x25cba44 0xf844eab)
      (BN 0x112f3aa 0xc7ad952 0x81c017a 0x229739f 0xb75a2a8 0x8b9222 0x469c483 0xbd0d6ad 0x892a13c 0xe344297 0xf435a3d 0xa1cbeb8 0xf7a0bec 0x78e2be1 0x70ba8cd 0x1ac54f6)
  ; Niels (BN 0x66e8b8f 0xadb2c15 0x5771a9a 0x96c68a3 0x56f334a 0x8699333 0x59f5962 0xba9c934 0x6e8ca4b 0x9ec73fb 0x27202e1 0x3c3802c 0x3e0c008 0x31f5b73 0x9611fa9 0xf9058c1)
      (BN 0x797c831 0x4d51124 0x50347ad 0x8f5ae37 0xc1a0c8e 0x70ced94 0x3898e64 0xf6db204 0x5750cd0 0xd00c9a 0x9bad712 0x741ec5 0xab37b7f 0x3c9d11a 0x9807714 0xa67ba16)
      (BN 0xeb5cbde 0xdc70fe7 0x49331d7 0x3cda5bb 0x514f18c 0xdec9068 0x75b501d 0xf3537d9 0x25b8e4b 0xdd02de7 0x72106 0x6232720 0xe266644 0x34607e7 0x1215cb6 0xebc51a9)
  ; Niels (BN 0xee7341b 0xa5187e6 0x2d83b6e 0xe6d52e8 0x23094a7 0xdf3c413 0x44e9de9 0xb3324f4 0xa35bfe5 0x689eb21 0xecd548d 0xf16363b 0x8e7f60f 0xe187cc9 0x2f0ccab 0x127d906)
      (BN 0x87622c5 0x623bf 0xd069496 0xa1966fd 0x812f9fc 0xc315b7b 0xd128b97 0xbdf5efc 0x32e3e16 0x1d464f5 0x81bfd7e 0x3cd94f0 0x2ce4009 0xed9dae1 0x36eee70 0x2756f57)
      (BN 0xe3d61bf 0xb528e4c 0xed051d6 0x5a03531 0x68d7f12 0xbbda4aa 0xe93ccb9 0x1810a28 0x5bef536 0xef4ac52 0x9f9f364 0x6dcefdd 0x78d6381 0x6e3d9ed 0xf0713c4 0x774bd6f)
  ; Niels (BN 0xe3ae341 0xc13c5aa 0x98373e7 0x9c6c9ed 0x64577a8 0x98f268 0x9488b45 0x15b886e 0x2aadba5 0x37692c4 0x8e7791c 0xb83170b 0xece1b44 0x1670952 0x9276da2 0xfd932a3)
      (BN 0x762d4a8 0xf1e26e9 0x2183414 0xd9d7408 0x57a0282 0xffec9bd 0x8fd497a 0x919e12 0xfe5f8 0xab7ae7d 0x851ff68 0x54dc442 0xb861687 0xc9ebeb3 0xb8b698f 0x507f7ca)
      (BN 0x410cc67 0x7e5cda6 0xbe9ef84 0xab7f000 0x2de4167 0x31b09f8 0x4be2064 0xc003f7b 0xffafd2d 0xbc2f44e 0xa45cd9e 0x13ca0a8 0x8cff10c 0x35e7098 0xd827ab7 0x1744f57)
  ; Niels (BN 0xa56c404 0x9ae3b93 0xa456699 0x4a410b7 0x355e6b2 0x23a619 0x7387257 0x9cdc729 0xae70d04 0x55b94d4 0xf65b005 0x2cbd607 0x9697166 0x3208b48 0x8867370 0xea2aa05)
      (BN 0x28ada72 0xdf76b33 0x604a7c2 0x2e20621 0xa105b09 0xf910638 0x96ef2cd 0xef4724d 0x6b8a2f7 0x377d83d 0x5ade324 0xb4f4880 0xb152018 0x1cd5da8 0xa20ca7f 0x45af671)
      (BN 0x711c0cd 0xd62da6 0xa27d523 0x4b53ac7 0xfb20e64 0x89cc150 0x83154fe 0x55d2c28 0x3448874 0xb5dcfd0 0x2a505cb 0x6d80dda 0xfb80dc8 0xb57162a 0x2431acf 0x7ddb516)
  ; Niels (BN 0xc084294 0xc845923 0x201bc25 0x72419a 0x5f8e669 0x45f408b 0x6b74dfe 0xe9d6a18 0x68fa075 0xe19108c 0x74177b7 0x17b91d8 0x7912c5a 0x2f0ca2c 0x85a90a2 0x9400aa3)
      (BN 0x59b02f8 0x1cf6408 0xd5ce427 0x758d1d5 0xef4604c 0x763c784 0xe205270 0x5fa81ae 0xdfc44cb 0xac537bf 0x342d670 0x4b919bd 0x9bf4b7a 0x238508d 0x95644f3 0x1548887)
      (BN 0xeb7de7b 0x8eeef4f 0xb0d4107 0x3012ffb 0x30b99d1 0xcb0d6fe 0x98067cb 0xc4b51d5 0x16b7ee 0x3356469 0x188542f 0xaddaf85 0x8de18c1 0x4538bdd 0xc59d4f 0x999dd4f)
  ; Niels (BN 0x4e160af 0x26ef161 0xdfc9c76 0xc023f9e 0xa5f57ba 0xcff090d 0x6643ae9 0x76db7a6 0xc646999 0x19462f8 0x3854b22 0x8fec00b 0x92a0a1c 0xd550416 0x215ca00 0x65db894)
      (BN 0x4705b6a 0xf8ac5cf 0xcb457e3 0x867d82d 0xccc2ce9 0x7e13ab2 0x8d3930e 0x9ee9a01 0xcb42df8 0x8370f8e 0xadd263e 0x2d9f019 0xb92d196 0x3302385 0x36e2c0c 0xa156545)
      (BN 0x1f5bae3 0x56dafc9 0xc94933e 0xd5fc6f3 0x6f76b0b 0xd8fdf2 0x342c280 0x726f2ad 0xc6d0c46 0x1e2fec8 0x74ae570 0xfe83ea 0xc128243 0x353cec2 0xc14bd2c 0x46657e1)
  ; Niels (BN 0x36315c0 0x8cc9cd2 0x39fda54 0x31d9c5b 0x37e1171 0xa5713ef 0x2886325 0x293d5ae 0x5015e1 0xc4aba3e 0x78e4fc6 0x3f35ef 0xac1527b 0x39d6bd3 0xfb77106 0x19d7c3a)
      (BN 0x75fe626 0xb548502 0xec71140 0x53a3fd1 0xbe096fa 0xe3d2d7d 0x95cce4c 0xe4ac7b5 0x9c0a494 0x77bad44 0x4afd5b3 0xb7c9881 0x8486cf9 0x57226f5 0x4f0cc57 0xb155715)
      (BN 0xe567a50 0x84e9d6c 0xf2558ec 0x52bf5d1 0xff60ee7 0x920d83b 0x1d17413 0xafc160b 0x7d3e7d1 0x8ae5883 0x896dba4 0xfd676c8 0x540611a 0x4e170 0x91f6541 0xf7ccb8f)
  ; Niels (BN 0xecc627a 0x4246bfc 0x46c03a4 0x4ba4312 0x872d497 0xbd1d101 0x185ee16 0x3b73d3f 0x678c0e3 0x1feb2e2 0x89dec76 0xff13c5a 0xe771d8f 0xed06042 0x97a83dd 0xa4fd2a8)
      (BN 0x8a7dcd9 0xdbca4e9 0x78bde99 0xee29cfc 0x95f52e9 0xe4a3b69 0x9ae8096 0x45d7018 0xb9b0d1b 0xfd2a8a3 0x107d8e1 0xaf1793b 0xe4afa20 0xdbf92cb 0x8e3681d 0xda60f79)
      (BN 0xaf29a68 0x65b5c41 0x3a5ef69 0x21ce9a0 0xcba4f38 0xb0c0a91 0x2a54743 0x8408de 0x4f673ae 0xbcec1b8 0xf1e5244 0x1b382a3 0xc9afae1 0xd1c1c24 0x2956904 0x5b7f3d3)
  ; Niels (BN 0xf2813f3 0x4ede34a 0xc9e8216 0xd4a8e11 0x41de8a5 0x4796d50 0x21cc987 0xc4c6b4d 0xe07fa1e 0xe8a433e 0xabcc5a1 0x55720b5 0xc74b080 0x8873ea9 0xab65d48 0x5b3fec1)
      (BN 0xa7119ed 0x417fa30 0x8419751 0xaf25775 0x7b463d4 0xd358a48 0x720b00d 0x89703cc 0xff7f271 0xce56314 0xade62c1 0x64db171 0x4a22fed 0x640b36d 0x696d23f 0x424eb88)
      (BN 0x248f13a 0xb81ad88 0x9248294 0xf5f6939 0xe8cfea6 0x4be9b33 0x18df01 0xb56087c 0xbbb6242 0x57e8846 0xb65a660 0x6a5db00 0x7daf343 0x963e3a8 0xec2140b 0xbadfe6d)
  ; Niels (BN 0x9e982ea 0x1bd59c0 0x937b289 0xf72daeb 0xa908e0e 0x18b76dc 0x12384ad 0xedb4985 0x6cc9538 0xce0243b 0xcb4e70 0xf96ff69 0xf673c8d 0x7c77bf9 0x88a528 0x5bf704c)
      (BN 0x9ebda3 0x21ce99e 0x1875ad0 0xfcbd9f9 0xb7a0b5f 0x9bbf6b7 0x69b1940 0x388886a 0xf81f12 0x926a56d 0x3358d46 0xe12903c 0x8e1ce9d 0x5dfce4e 0xe2f7e23 0x44cfa94)
      (BN 0x234cc41 0x6c2b9d7 0xe2bda7d 0x6ad9c2a 0xba701f9 0xb64cddd 0x49ac580 0x180318c 0x19f4c95 0xc35d143 0x5cd415b 0x3a21dc6 0x8e04940 0x9c474c2 0x75e57c6 0xc651148)
  ; Niels (BN 0xfd3ce50 0xfb22bb5 0xda7ae54 0x17b48aa 0xd19a536 0xfd5c44a 0xe55e45c 0xccc4e4 0x5b4c3f5 0xfd637d4 0x23c37cf 0x38914e0 0x6a8d898 0xac1881d 0x3d943a8 0x611ed8d)
      (BN 0x400336c 0x7dc52da 0x15b9457 0x1fded1e 0x5568e3a 0x902e00f 0x456d2d 0x219bef4 0xfb3dbc9 0x5684161 0x49a76ea 0x4a4e9be 0x88b78ff 0x6e685ae 0x3042d3c 0x21c42f1)
      (BN 0x2eec2d4 0xa91dda6 0xd7b13e9 0xa6b7e64 0x44c9969 0x384086b 0xf683239 0x8de118a 0xb85d76c 0x8e416f 0xda9b120 0x20945eb 0x5e7b172 0x96a7f48 0x35f011 0xfa91c7)
  ; Niels (BN 0x77a1535 0x5e86940 0x71c8f1d 0x8bef75f 0x6423511 0xa7c131 0x604320 0x906e1d7 0xa2ffbd6 0x3fc46c1 0xe68f360 0xd1d5022 0x37bbf46 0x2515fba 0xe023b44 0xca16234)
      (BN 0x6a18c6d 0x9df9856 0x968f219 0xcf3a200 0xa6d9086 0x44ba60d 0x344da03 0xdbc9c0e 0x4466855 0xf9401c 0x5b0a8d1 0xd46a57c 0xd7ac7c6 0x875a635 0xb7e0ae6 0xef4a933)
      (BN 0x9e0b96f 0x878366a 0xea9e0d8 0x57a8573 0xdc3f601 0x5ef206d 0xd1c4eab 0x46756a9 0xbb3c12c 0xbccf478 0xf813a3b 0x1f97ed7 0x2460e1c 0x1b30958 0xecd5cb 0x26a4f76)
  ; Niels (BN 0x97030bd 0x1390783 0xe859a00 0xe3c447 0x4c82393 0x64a5b33 0x7358093 0xb8aabeb 0xb9ae73b 0x20778b 0x7892a18 0x32ee94c 0xcb41bda 0x8215253 0x93517ae 0x5e27975)
      (BN 0xca33eec 0x2922b39 0xf3ab194 0x90d12a5 0xfb5f8ed 0xab60c02 0xabba1cf 0x188d292 0x9698f6e 0xe10edec 0x34133c8 0x69a4d99 0xe6d3d06 0x24aac40 0x77661b0 0x1702c21)
      (BN 0x7aa2b5 0x7c89a5a 0xae4711d 0xae492ec 0x74f0844 0xee921ab 0xfc5005f 0x7842778 0xb28022c 0x6a4d33c 0xac0f437 0x7b327e4 0x6acaf12 0x7a9d036 0x6c9ae1c 0x5c6544e)
  ; Niels (BN 0x4265aa2 0x9186859 0xe98ca6d 0x797acca 0xf8a184 0x8d8c5f 0x2b2fe6e 0xd1f4f1c 0xb48a006 0x36783df 0x503527 0x8c16512 0x58ce9b 0x25fd780 0x7be7d27 0x68beb00)
      (BN 0x474b114 0x19e23f0 0xd3b437e 0xeb94c2a 0x83b75ac 0x6ddb346 0x9b564c6 0x391f920 0x3bff7aa 0x83b3bb 0x6dceefc 0xeedcd0f 0x794fe01 0xb50817f 0xaaa75c9 0x36474de)
      (BN 0x5836f3d 0x2f00775 0x30acc6b 0x4d39f25 0x2699929 0x6b58d7b 0x3185e62 0x4126fdd 0xf32897c 0x3aeaac0 0x4edb66d 0x3c0478f 0x66a9364 0x72f43ac 0x744777a 0x3730da)
  ; Niels (BN 0x487cda3 0x45fdc16 0x4cf2ed7 0xb2d8e84 0x88c1607 0x612c50e 0x66c1672 0xa08aabc 0xbb24d97 0x6031fdc 0x5744b93 0x1b63952 0x639ab17 0x4409d62 0x347ab1d 0xa1853d0)
      (BN 0x98406f8 0x3667bf9 0x3a12975 0x115c4 0xb20e8fd 0x1e662f3 0x4cb24eb 0x19ffa53 0xc8efb45 0x16be0d 0x26243f5 0xff76a8b 0x1a541e3 0xae20d24 0x13cd430 0x69bd6af)
      (BN 0x140a3de 0x8a5e5a9 0x653ac12 0x5c18d41 0xd6e8f3d 0x10321e9 0x6e10aca 0xfbdda01 0x8c20257 0x77fb603 0xa81ed77 0xb5438b7 0x9a8ce83 0xdb1dbcb 0xc1aabc3 0x26734c2)
  ; Niels (BN 0x9b5c477 0x7e32c04 0xd9bcfd8 0x9d2bfdb 0x45938c6 0x636e930 0x7687298 0x7fde4af 0xfafa5d3 0x46a5184 0x13a359b 0x79b1e7f 0xfb927d6 0x875adf1 0x61bcad2 0x333e21c)
      (BN 0xb6bdb19 0xb4b53ea 0x43711d0 0x9b22d8b 0x961785d 0xd948b9d 0xf279ead 0xcb167b6 0x678e1c9 0x191de3a 0x1095c2e 0xd9dd951 0xcd43067 0xf284324 0x35151dd 0xed74fa5)
      (BN 0x8c27472 0xfb7feb0 0xf699c77 0x8a97b55 0xf923b83 0x6d41820 0xf0aa975 0x6831432 0x63b3955 0xa58ffb2 0xa66db38 0x4f13449 0x2b6d583 0x26fccd2 0xeeb6c2 0xa803eb2)
  ; Niels (BN 0x926830b 0x7df6cbb 0xae37865 0xd336058 0xc696423 0x7af47da 0xec64ac8 0x48d3011 0xe40049f 0x6b87666 0x51303d7 0x36a2e0e 0x79dbc55 0xba319bd 0xcc94f53 0x3e2737e)
      (BN 0xad95be 0x8ed8ea 0x9709645 0x41d324b 0x57a19b4 0xe254122 0x423d8d2 0x58df9f3 0xef71304 0xa9ab20d 0x8ac4a81 0x9ae0dbf 0x7e4392a 0xc956597 0x44baf55 0x3c92694)
      (BN 0xd9d8d26 0x2d69008 0xd7030a8 0x92f686 0xaa28fec 0x1f19e95 0x1261538 0x2150bab 0x210b26c 0x8c5a941 0x36d1e6 0x9330209 0x8e58de7 0x62e11ec 0xbb9d27f 0x11c3d11)
  ; Niels (BN 0xc5d8cd1 0x8132ae5 0x24a1d9f 0x121d683 0xfcb8c76 0xd6be9da 0xedf745 0x684d907 0x6d7448e 0x519fbc9 0xdc1f27e 0x388182f 0xd41f158 0x235bae 0x1a1796a 0xbf6cf6f)
      (BN 0xbccdf9d 0x437bce9 0x85dc0a3 0xe0c8e2f 0x3995a19 0xc91a707 0xe294559 0x856ec9f 0x94b156e 0x9e4b333 0xc497e5c 0xe245b0d 0x7eeaeff 0x6a54e68 0xfdb7c 0xf1cd1cd)
      (BN 0x2eb7de6 0xd523b4b 0xf2c56f5 0xcf7b525 0x4f0d1b1 0xb921755 0x5984a02 0xbad2cbd 0xe2b21dd 0x2b4af0f 0xf310486 0x2492603 0x95b9d32 0x73e7b37 0x9b2bd25 0x1e837c8)
  ; Niels (BN 0x7993d92 0xce382dc 0x938b4c8 0x21153e 0x7f48f51 0x96f756 0xfe4b0d5 0x58f81dd 0x6b355c7 0xcc379a5 0xd3e819 0x2c76077 0x26e5a40 0xee22d1d 0x5b082d7 0xde6d93d)
      (BN 0x9a1e01a 0x7b2743b 0x42688c4 0x7847ffd 0x610a316 0x6c7844d 0x50aa4b0 0xf0cb8b2 0x43b3ae6 0xa190601 0x77cfd80 0x14eb10b 0x729dd06 0x170905 0xcd72477 0x63b5b9)
      (BN 0x3ad1fa9 0xf56e5bd 0x8031815 0xe7a0948 0x69d094a 0xf7fc3ae 0xd45a9c2 0xddad7a7 0x167a928 0xbc07fbf 0x7e0479f 0x7a5d613 0xab60a00 0xa0659ee 0x342b4f9 0x3e068b1)
  ; Niels (BN 0xd2b0cba 0xffc5c89 0xe3e6fc3 0xd363d42 0x18e2e8a 0x19a1a01 0x48882e1 0xf7baeff 0x8c6b514 0x1bd5af2 0x2253cb2 0x55476ca 0x7e2ddf3 0xd8eb197 0xdb228a1 0xb173b1a)
      (BN 0xd65ec97 0x5b64c6f 0x877bc7f 0xc1fdd7f 0x89f841c 0xd9cc6c 0x1aff9ad 0x5c97b7f 0x475d47e 0x75e3c61 0x8153011 0x1ecb1ba 0xd71d40d 0xfe7f1c8 0xa229832 0x3fa9757)
      (BN 0x2f528f8 0xd34662 0x7a62227 0x1e1f749 0xf9af433 0xfff70d2 0x79ea3c 0x2812c6d 0x6b25d7f 0x6898af5 0x1349645 0xc17c44f 0xa3eb539 0x207172e 0xd6a263d 0x608e8b)
  ; Niels (BN 0x450f9ba 0x2389319 0xaa1250a 0x3677f31 0x42f38cb 0x92c3db6 0xdfc9773 0xf8b64c0 0x505b795 0xcd49fe3 0x90a510 0x68105a4 0x72a8bb6 0xdf0ba20 0x3afd8be 0xeb39614)
      (BN 0xe70bcb 0xf11cc8e 0x974e7dd 0xe5dc689 0x9ee5870 0x14e409f 0x9acbd63 0x826e668 0xd895d88 0x8a6f4e3 0x41fd4ad 0xb26a8da 0xf83efd7 0xfb7723 0xa5f6c3 0x9c749db)
      (BN 0x4db3200 0x5f2b130 0x7459b86 0x22507ff 0x2b4f0bb 0xf4c1c9 0x50e0eb9 0xc8cb42c 0x38aad80 0x4781d10 0xa2254af 0x2dcf20a 0x51a93e2 0xd9ecda8 0xeca6cb2 0x43f6b92)
  ; Niels (BN 0x4fe26c9 0x67f8f0c 0xc8f67b9 0x79c4a3c 0xf23550d 0x82b1e62 0xaefd7f5 0xf2d409c 0xdb26e81 0x80e67dc 0xea1f98a 0x87ae993 0xcf61d03 0xaa108be 0xfb608a3 0x1acf11e)
      (BN 0xd994651 0x468711b 0x67561bf 0x33108fa 0x92a54b4 0x89d7601 0xe9f1871 0xadc433d 0xf36e050 0x467d05 0x579f7f 0x7847e0f 0x320052d 0xa2314ad 0x9f0b243 0xb3a9364)
      (BN 0x454af26 0x7dda014 0xb22df7c 0xc49fa1 0x761dc2d 0x5cd4d7e 0xa14b368 0x2af81a1 0xcfd7ddf 0xa5e57b1 0x3a0f738 0xf90ab3e 0x4d7bc0f 0x5cb8373 0xabb405a 0xf608c16)
  ; Niels (BN 0xc297f8b 0xe828333 0xc3f7e1f 0x9ef3cf8 0xff31cb9 0xab45f8f 0xcb0b013 0xc8b4178 0x3260a3f 0xd0c50dd 0x257f5bc 0x97126ac 0x90c705a 0x42376cc 0x4a1071e 0x1d96fdb)
      (BN 0xe744185 0x6c59c9a 0xb4282cd 0x9fc32f1 0xa59b1ac 0x4d6348c 0x81be067 0x1053768 0x13147dc 0xaf40960 0x5cb3124 0x4abfb5a 0x626c354 0xd2a7f8 0x8e07431 0x9c6ed56)
      (BN 0x7611e57 0xabd2bb2 0xfbbd267 0xcf99bd1 0xd478cc7 0x6f7ac78 0xdd23fbb 0xdc9d340 0x99c46 0xd3ddd52 0x6a03486 0x9836dbb 0x7c36883 0xf19de26 0x3349904 0x2088561)
  ; Niels (BN 0x69b482c 0x832d023 0xd93450 0xcba52ff 0x8d554db 0x3fa9c90 0xb54122f 0x8d1e357 0xdc950c6 0xabd91c2 0x4c0ec69 0x7eff1df 0x3fb2d31 0x3f6aeb1 0x9fc5b2c 0x2d617)
      (BN 0xbf1814a 0x2809e4b 0x9fafb32 0xb9e854f 0x10f7a67 0xd35e67c 0x6e748cf 0x8f1bcb7 0x15687d2 0x4224d95 0x4e620c4 0x5ba0b77 0x5d54119 0xb5e57db 0x5683282 0xe15babe)
      (BN 0x7e36376 0xb936125 0x3709d03 0x49f348e 0xc455aa7 0xdd0a597 0x3320668 0x78ce60 0xe3195dc 0x635f64a 0xb508288 0xa4ed450 0x5e1cc1d 0x75b9adb 0x67741f2 0xfca5881)
  ; Niels (BN 0xa819691 0xa9e7730 0x4992b70 0xd9cc73c 0x67de5a 0xe299bde 0x705192a 0x8c314eb 0x7e8a3cc 0xe7226f1 0x6e65a47 0x29dfd95 0x9073b12 0x53a8e83 0xab1597e 0x6f942b2)
      (BN 0xa7dbe2f 0xa7efe46 0x5014fe7 0x2f66fd5 0xa1ff026 0x6a428af 0x604ab72 0x56caaa9 0x7fac8ae 0x33f3bcd 0x1c86764 0xccb1aa0 0xf13bf40 0x158d1ed 0x6fcf3b4 0x9848ee7)
      (BN 0x132a1c6 0xe3c287f 0x4233a01 0x6b0db80 0x2ad889b 0x2a38790 0xb0f24d5 0x490b258 0x5232a02 0x7f0e074 0x52d1dc4 0xc95c8c 0xbcbc40d 0x7fb060 0x39dc67d 0x2e50bf1)
  ; Niels (BN 0x6531ebe 0x3934374 0x35d429d 0xc8509d8 0xf6b0018 0xe79ecef 0xe8efce5 0x4abfd31 0x1e20210 0x7bbfaaa 0x193e179 0xe3be89c 0xc31d585 0x1c420f4 0x5bef5ae 0xf414a31)
      (BN 0x5f1b144 0x82aeace 0x8cf4dd3 0xf68b310 0xdde3020 0x634af01 0xf5c2355 0xbeab5d 0x1b49b0b 0xe8b790d 0x54e36f4 0xe48d158 0x5f3db9f 0x40ab2d9 0xd9e899a 0x2711c4e)
      (BN 0xb66f207 0x83d695d 0xa58aa77 0x2a2f8ad 0x16b4818 0x2271eec 0x141f337 0x8443a70 0x640352b 0xd60ae50 0x385490c 0x816cee1 0xe989cbc 0x6577b21 0x317b416 0xaf2a0d2)
  ; Niels (BN 0xb39549a 0x98cddc8 0xb05d22c 0x6da37e3 0xd4eb3cb 0xce633cf 0xf526acd 0xfda288e 0x8c5d30a 0x2533887 0x4e5a1b4 0xf34438c 0x7c310f1 0x584efea 0x1b660ad 0x41a551f)
      (BN 0xca2450a 0x5fa020c 0xb6416d8 0x491c29d 0xf9f9a85 0x37cefe3 0x647066 0x3d40523 0xfdbe89 0x49e835f 0x1a0815c 0xfeb78ac 0x2dc9724 0x828e4b3 0xc8d6fd4 0xdb84f2d)
      (BN 0x429bc85 0x2808570 0xc40c8ac 0x9d78dbe 0xbc3a7b4 0x52b4434 0x9fe281c 0x801b641 0x764540a 0x8839a68 0xf958be4 0x14ba034 0xec068f7 0xa31dbb6 0xe8c9cd9 0x77bd9bf)
  ; Niels (BN 0x1eb72d2 0xa0b68ec 0xc0d45a0 0x2c03235 0x23fe8c5 0x5536273 0xb17af94 0x6186e94 0x6e29f14 0xa990619 0x6567733 0x25b3aee 0x80517 0x7e0dd84 0x1a4ba93 0x18eb580)
      (BN 0xa768d7c 0x7bf562c 0x74e387c 0x6c1f3a1 0x7fee939 0xf024b44 0xf01143f 0x7e7af75 0x4eed89d 0x3adb70b 0x21ad79a 0xe435440 0x42011f6 0x91f7f70 0xe3a0ddc 0x93c1a1e)
      (BN 0x84095bf 0x28018fe 0xb41f3bd 0x91c0f9d 0xaca7dba 0x445df 0x7e6bdc6 0x603d30 0x40ea4b0 0x726c4c8 0x741716a 0x9220d1c 0xa03006 0xd491864 0xbda1d21 0x54caa25)
  ; Niels (BN 0x38971d6 0x3973d89 0xa80c1f5 0x2aca26f 0xaa6b513 0x108af1f 0xd7924e6 0xdaae275 0xd721308 0x53634ce 0xbbd443 0xd2355fe 0x2d22095 0x357612b 0x4136cf3 0xf9bb9dd)
      (BN 0x20be973 0x938f97e 0x6aaf306 0x99141a3 0x9e545a1 0x57b0ca2 0xf9fbc13 0x85db571 0x54b4693 0x8b333c5 0x3e241cb 0x43ab6ef 0xa1e5c70 0x54fb20a 0x2760adf 0xbe0ff85)
      (BN 0xa1fc5a 0xd400ed3 0x75e6307 0xe424e05 0xc07b2c6 0x36e3986 0xd145650 0x7960e4 0x23cdc93 0xa643ab8 0x92c7976 0x26e9ee2 0x5d3fdeb 0x1f9d255 0x33d437d 0x12c3fb8)
  ; Niels (BN 0x31be374 0x62dd0fb 0x4c8e727 0xfcc96b8 0x75e6ae3 0x3f64f13 0xd1af004 0x57d9b6d 0x1103c7b 0xd6a167b 0x80fb537 0xdd28f31 0x7167128 0x4ff27ad 0x461f2ac 0x8934c33)
      (BN 0xc32b31a 0x50d70 0x6d437b3 0x1939d57 0x8bf9fe6 0xd709e59 0xbd2ee9e 0xa885b34 0x8ab1a50 0xdd4b5c0 0xb55639 0x91bebd5 0x4acdbc6 0xcf79ff6 0xd826336 0x6067a39)
      (BN 0x86fffbc 0x9a4b8d4 0xef9b4 0x458102d 0xb3cfdf0 0xf498293 0x60b1b92 0xed2d7b9 0x68fc137 0xce3cd6c 0x1eccf99 0x4b60f43 0x9e7e2b8 0x81efbe 0x7981133 0xa36f0ae)
  ; Niels (BN 0xdfce6dc 0x6918f5 0x93c57fb 0xd4bf1c7 0x9435364 0x69a3f64 0x5b0cd6e 0xe89a50e 0x7e973af 0xb9f6a23 0x104e41d 0x6d4ed8b 0x3924cd2 0x498946a 0xac9d4f7 0xc136ec5)
      (BN 0xd179101 0x51207ab 0xd9c5da 0xfc2a5c2 0x701b6df 0xfb9d5f2 0xdea82b8 0x2dd040f 0x38442ff 0xf163b07 0x68855b8 0xd9736bd 0x5e61c 0xe0d8e93 0x3988570 0xdf5a40b)
      (BN 0xf53acc9 0xee563d6 0x5959acc 0xd465d2b 0xbba26c8 0x6575973 0xf81a1a3 0xc9e4d84 0x8aa468a 0xc3fbc4e 0xeeaa11 0x4814993 0x611000d 0x8850a6f 0x88337f9 0x6709f67)
  ; Niels (BN 0x597455f 0xb373076 0x53ac0f5 0xe83f1af 0x1dc6840 0x41f63c0 0xb0c6f4b 0x97dea19 0x4c1572c 0x7f9d63b 0x2d0f5f0 0xe692d49 0xe83b4ad 0xcbcb392 0xed9b1a8 0x69c0f39)
      (BN 0x36bf8f4 0xab13af4 0xdac8574 0xbcf0a0 0xf705045 0xd50c864 0xdebc842 0xc40e611 0x9bd5caa 0x8501048 0xcec026f 0x7c5050a 0xc8da6d1 0xf67d943 0x78074c6 0xde1da02)
      (BN 0xed8f836 0x79efcff 0x2b5504 0x6044238 0x4aab7dd 0x70a6e29 0x15e7521 0x20f75be 0x9bd5414 0x62827c1 0x5c48700 0x6738e42 0xfde0ffa 0xdd37618 0x1e1c3b 0xbb2d65c)
  ; Niels (BN 0xd825540 0xc903ee6 0xf98473e 0xadd6c4c 0xd4227f1 0x7636efe 0xe55e772 0x905124a 0xb12ed53 0xe6b38fa 0x863fe55 0x45e132b 0xedb366a 0x3974662 0x2be8208 0xb178705)
      (BN 0xb5c52f2 0xe748cd7 0x3f89cc3 0xea9df88 0x156b6c7 0x18970df 0xa33a847 0xc5a46c2 0xe32aa09 0xcbde395 0xb423140 0x72474eb 0x86a23d 0xfb00053 0x22d4e1f 0x1dafcfe)
      (BN 0x288a383 0x59eb4ff 0xe3388ab 0x283876b 0x4a2543b 0xbdd2297 0xe982d74 0x59eef0f 0x3dad778 0x97a5cf6 0xaebc99f 0x4bc6002 0x118c690 0xc9a91d6 0x2a527ab 0x3836461)
  ; Niels (BN 0x35d9fbc 0x6e34a 0xb2f019a 0xeee4e48 0x3003a5f 0x6b34474 0xf04a7e3 0x541d514 0x7647455 0xe81f9ee 0xc438f81 0x5e2b916 0x7b7eff0 0x116f813 0xc7039d1 0x9bd3dec)
      (BN 0x5b37bf2 0x40f7e7c 0x1181bba 0x64e4dc8 0x2a366b6 0xa8767ae 0x90546f2 0x1496b4f 0xf860441 0x2a28493 0x3049a3a 0x21f5951 0xa8b7ee3 0x852d369 0xb7d30a9 0xdd2e7d8)
      (BN 0xbcbeef2 0xfa2dd90 0x710de2a 0x507d774 0xe7e373 0xb585ad1 0x4b4f921 0x41f487e 0x212f81d 0x191c9d8 0xdd8d474 0x1bc55cb 0xba8827b 0x17954bd 0x991ca44 0x4d6d3a)
  ; Niels (BN 0xe3c82ab 0xe38abec 0xa2c7a86 0x5a51f18 0x86d592e 0x9dafa2e 0xb688678 0x495a62e 0xc0eb212 0xb79df74 0x8b75982 0x23e8cc7 0x1075e13 0x5998cb9 0xa61bc76 0x735aa9b)
      (BN 0x3ea1222 0x334f530 0xb0a5d3e 0xdfb3dbe 0x92335c1 0x2940d95 0x3e8938a 0x706a7a6 0x8bc4caf 0x5a53355 0x92022a9 0x558e331 0xf74c133 0x970d9fa 0x63493ca 0x2979fcb)
      (BN 0x22419d7 0x260857d 0x77651f0 0x5e0387d 0xd2eb499 0x8e0025e 0x5804c2a 0xc830b13 0xd3a77f6 0x37f43db 0x2f7379c 0x8a4073d 0x503ad58 0x72be0ce 0x30c78be 0xe6869d1)
  ; Niels (BN 0xe4ea21f 0xbfc5fa1 0xbb892e6 0xc21d7b6 0xacf0291 0xcf043f3 0x49b3c90 0xc13f2f8 0xef10891 0xd1a97eb 0x445e7fe 0x61e130a 0xedbf22b 0x19513fd 0x3bff841 0x1d60c81)
      (BN 0xcccf2ee 0x6e9f475 0x506430c 0x454b9cd 0x79ee479 0x224a4fb 0xef0b5e2 0x62e3347 0x512232a 0x34fd2a3 0xf457046 0xb8b3cb0 0xdaa38ec 0xeb20165 0x2d9c0f7 0x128eebc)
      (BN 0x30fdec 0xe6a9e38 0xbc14288 0x1c23597 0x6356df1 0x97156a4 0xdaca6a 0x642048f 0x7955fd4 0x3970a6e 0x5e3cfc6 0xa511e33 0x6c85e31 0x5486575 0x66a6190 0x465f1ab)
  ; Niels (BN 0xa8a8fc8 0x3e4964f 0xcf41689 0xf6a1cdb 0xfe7fda7 0x943cb18 0xf34440a 0x606dafb 0x399c789 0x5d37a86 0x9417403 0xe79a2a6 0x68b8866 0xfe34f7e 0xd2df10e 0x11f448e)
      (BN 0xd97dfbd 0xc79e0b6 0xd2bc6e8 0x917c71f 0xcfb63d8 0xdb7529c 0x7f17866 0xbe5be95 0xc2cdac1 0xa9e11fd 0x1f44443 0x7b91a8e 0x57d80f 0xa3065e4 0x8d5f6d4 0x4825f5b)
      (BN 0x33e033b 0xe0a810 0xe821eab 0xaec986e 0x379273c 0xd1a4a48 0x9e06304 0x609b79a 0xfe8f307 0xe9618b4 0xb50969 0x6ffdfa5 0x887ac0c 0x9530224 0xf0cef97 0x20e7b36)
  ; Niels (BN 0xb691713 0xfd579ff 0x81c412d 0xb76af4f 0x6110f82 0xf239de9 0x37f0306 0xe965fb4 0x6900921 0xca7e943 0x25fa24a 0xe487f13 0xe476380 0x633907d 0xc5b8ea0 0x721c62a)
      (BN 0x3320791 0xb37396c 0x75c5783 0xfc7b671 0x73ecc38 0xc36d2cd 0xb328fc5 0x80ebcc0 0xb35d35d 0x43a5b22 0x713c9da 0x466c9f1 0xdcaa8da 0x26ad346 0x1183a6 0x7c684e7)
      (BN 0xbd14b06 0x3f2ab1a 0x8e37230 0xb129a8e 0x83d5c64 0x48bc5b0 0x2933a98 0x2606c1 0xeec1a73 0xcf8051c 0x36c3ce6 0xa755a88 0xca4cb9 0x2dabaa9 0xddfc0f2 0xb6e5525)
  ; Niels (BN 0x8635413 0xc4a1fb4 0x23ad59f 0xb5dd544 0xfd24a88 0x9ff5d53 0x7fc06a7 0x3c98d26 0x13641 0x2db7cb2 0x6e191f2 0xbd1d671 0x9094241 0x6dbc8b2 0x3dafa2c 0x44bbf23)
      (BN 0x786ff34 0xdff3103 0xb1f20c3 0x144553 0xeb930e4 0x95613ba 0x75ea5d4 0x980582 0xb046756 0x7cd1402 0xd58aee3 0x74d74e4 0x43ff69b 0x5f93fc3 0x296b3b0 0x873df17)
      (BN 0xe0ace19 0xaa7c72b 0xfc37e4d 0x4095d22 0xe3b7c61 0xa7d85f9 0x4c9553c 0xff21d34 0x68e8b86 0xd105d62 0x3758845 0x616d73 0x7210610 0x3ecb4ba 0xddc03b7 0x6a75e7d)
  ; Niels (BN 0xdb787cf 0x7860d99 0x18f4a8 0xfda8983 0xac4743c 0x8c8866b 0x4c82a3f 0xef471f8 0x6d3b8e7 0xabea597 0x96cd015 0x7148828 0x84ddac5 0xb49fae5 0xb69c81 0x8e33a1a)
      (BN 0xc06881f 0xa9ee23 0xd871945 0x2c727d3 0x512d24a 0xf47d971 0xf9ef31a 0x671e816 0xfaad673 0x883af2c 0x83d6c9a 0x601f985 0xdc79655 0xb435f5a 0xc04bff2 0xad87b71)
      (BN 0x6175613 0x84911d3 0x27629dd 0xdbaa244 0x1554fc7 0x9b6f30b 0xcf7ea9e 0x26da093 0x8218c7c 0xeac4cfb 0x4231490 0xc4bde07 0xfb62587 0x89e5b5a 0xadfdbcc 0x67fcb73)
  ; Niels (BN 0x2312cc3 0xeebfd4e 0x4e4fc8c 0x474b256 0x4b1da9b 0x3303ef1 0x66beb1d 0x3c93e0e 0x566925a 0x13619b0 0xd901bf3 0x8817c24 0x98d218b 0xb62bd88 0xf1e88a2 0x75a7716)
      (BN 0xa97dd5c 0x7f8a43d 0x800fc7b 0x58539c 0xa28414a 0x40f3cf5 0x95283d6 0xd68dd0d 0xa90146e 0x4adce9d 0x7d4f908 0xbefa41c 0xe3c3060 0x7603bc2 0xb3545db 0xbdf360a)
      (BN 0xe1976f0 0xf6de725 0x2fda8a 0xd96f80a 0xe629fa 0xb25412a 0x78fdb62 0xc540e7e 0x7336d3a 0x4ad02fb 0xbea5a3a 0x4922ae1 0x2d4bfeb 0x26147d4 0xc4b94bc 0xd379a5b)
  ; Niels (BN 0x5d8fef0 0xc338b91 0x45c39a 0xa893292 0xeba6887 0x28ab4f2 0x519fd61 0x60743cb 0x4093ac0 0x621396 0x3f6266d 0x7c0b7a4 0x4fa5bda 0x8e3557c 0xe7b8d9d 0x2da976d)
      (BN 0x9452f4c 0x7004718 0x1ce78d5 0xf7ad12e 0xec44a8b 0xaf1ba51 0xe667cd6 0x5f39f63 0x648425e 0x58eac4 0x2bea03b 0xd7fdab4 0x688de15 0x28576a5 0x9e77c10 0xaf97320)
      (BN 0x5749232 0xb78d607 0x33b2cdc 0x1dc47a 0x91b24f1 0x18c7b2e 0xf9876bd 0xb5bdc68 0xcba2b44 0x13f489c 0x66128de 0x3b88460 0x8884dcf 0x3d6252c 0x9908209 0xe3ae84b)
  ; Niels (BN 0x22d883f 0xaa22610 0x48010ac 0xebcca45 0xe28a437 0x2528512 0x6b66082 0x70ca767 0xf7c6d3 0x84bda17 0x7c9b8bb 0x581b474 0x61c7e2 0x5c96a01 0x62b5273 0xfb7c4a3)
      (BN 0xf7b574 0x6366c38 0x9ff0438 0x1c7d1f0 0x1f5b22 0x3e20a73 0x16d28f6 0xd3efb19 0x60ce83 0x49f4f81 0xa43ced1 0xc69d91e 0xcd269ed 0x2b6f3e5 0xce9ec65 0x5b0fb22)
      (BN 0x4aed2fd 0x3cffdf1 0x7c5b2d9 0x9f0d77d 0x1321d9f 0x4812ec4 0xddf0916 0x8a1448b 0x30175df 0x8fef860 0xa76c7 0xe3d7032 0x70b2094 0xd1babb4 0xe5828c 0x9f3a43b)
  ; Niels (BN 0x32a093f 0xa947000 0x25216e7 0x76e96c2 0x6e45f91 0xa63a431 0x645d3b2 0x7d8bbb4 0x22793eb 0x340a6ff 0x572aeb7 0x6f935d4 0xafa28 0xb1fb69f 0x3161ed3 0x9e8f342)
      (BN 0x69f701 0xae307cf 0x2dd618b 0x5859f22 0x6ec0b0d 0x212d6c4 0x2afb62d 0xa0fe464 0xa0a8903 0x420d8e4 0x9bdf7b0 0xa80ff63 0x90b5d8e 0x19bee14 0x9c27a86 0x7439e4b)
      (BN 0x4a312e8 0x610b639 0x96160f5 0x5aaa19d 0x6138c4a 0x8190e28 0xa5cd53b 0x6538796 0x432a97c 0xfe28804 0x1f55112 0x7315e01 0xd5acb9d 0xbd4157 0x9350336 0xd1b9546)
  ; Niels (BN 0xbc4786c 0x60db815 0xeedc434 0x6fab25b 0x84797c 0xc610d06 0x537bec0 0xc48f08 0xc5b93da 0x31aba51 0xe01f347 0x7968fa6 0x52840c6 0x30070da 0x5a4837f 0xc043c22)
      (BN 0x885377a 0x51cfcc5 0xb1803ca 0xdce566c 0x3f2c7d4 0x430c764 0x37bdcc0 0xdce1a13 0x283c128 0x10d5bd7 0xf9b46fe 0x3b1b547 0x7e770ab 0xf245e3 0xf022b37 0x7b72511)
      (BN 0x9b6116c 0xe4302ff 0x1d5f02a 0x92314b8 0xf30702f 0xd31425 0xe04213c 0x4946262 0x9b6f9ed 0x7ead9d1 0xce8989f 0x1080a31 0x6672a74 0x1b632f3 0x9645a83 0xa03933d)
  ; Niels (BN 0x26f8d3f 0x4a29029 0x637ab75 0xad79b42 0xf2d4e8 0x88f60b9 0xe398c4 0x30f54ef 0xf99681e 0x21dc9b 0xde74ee3 0x7ebf66f 0x386e9a4 0x4ade654 0x6be4c27 0xe748506)
      (BN 0xaa0d633 0x8940211 0x136571d 0xaddae28 0xa20d673 0xd68fdbb 0xbc9e21a 0x3bc6129 0x84ebe9a 0x346cf1 0x41ebc7f 0x68774d7 0x6966557 0x19d5e9e 0x981b651 0x3cbd7f)
      (BN 0xc67c41f 0xbba0ed9 0x25ba195 0xb30c8e2 0xa5cef18 0x8bb5762 0x6fb7cc 0xe0df31b 0x41991d5 0x18b9121 0x93eac2 0xf6ed54e 0x64dbbb3 0x9e2882 0x99b89ef 0xfeb6632) ].

(* decaf_combs_32.rs: DECAF_PRECOMP_TABLE.scalar_adjustment (end of the file) *)
Definition scalar_adjustment : list Z :=
  [0x4a7bb0cf; 0xc873d6d5; 0x23a70aad; 0xe933d8d7; 0x129c96fd; 0xbb124b65; 0x335dc163; 0x8; 0x0; 0x0; 0x0; 0x0; 0x0; 0x0].
