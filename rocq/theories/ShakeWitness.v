(* A seed whose public key the decoder refuses, with SHAKE256: found by search outside, checked here. *)
From Coq Require Import ZArith List Bool Lia.
From Verif Require Import SpecField SpecBytes SpecScalar SpecCurve SpecDecode SpecEd448 SpecVerify SpecInternal SpecShake.
From Verif Require Import Base Bytes Errors ExtendedPoint Eddsa Goldilocks.
From Verif Require Import Field FastF Edwards Isogeny CombMul BaseTables Decode Ed448 Order Equation Facts Total Witness Sound Kernel Shake SeedWitness.
From Verif Require Samples Interop.
Import ListNotations.
Open Scope Z_scope.

Definition shake_seed : list Z := [168; 36; 218; 90; 0; 3; 0; 0] ++ repeat 0 49.
Definition shake_scalar : Z := 0xd2f83a32d1cd32dbc4ef46b8e04457688c5d91a4130fb43a35c13edd0444877f70ab2f5c0db4783978382f711f8dd1b6be7b9a3f0e3fd4a4.
(* shake_scalar B, mod the order of B, from 2^444 B: data, checked below *)
Definition shake_hints : list (bool * nat * zpt) :=
  [ ((true, 442%nat), (0x73bc91c0b38ac614ab5acbf4c4f1cddd58ad7b63688d99d3151d89c3771c41e49ad29e774b2332a4a3121c7da583c4b0de7ad091b5c33e29, 0x7074d867849e93ad4a964d2afc2d86f5ded1f5d79e1389fbb7c37a9591a16cbe133f862a902757089f58718bbaa3bba07a184b0d8b1e07d5))
  ; ((false, 440%nat), (0x80c155f0d1d4193f8ab36d7934f687e01de7482441a985d79e6b68d33ed105a145427cfa6675267d160a612d98cf74416d0bb7d42e581af8, 0x23df87b0c52e9ae64d4958033914e86b38cfa4e6fc00679685b7522a50c24b5c545686cd2ed71bc5dc947a52daefdd59301f594d3d269e7c))
  ; ((false, 435%nat), (0x6688c1bfe279b046b31055b1edd9670bada61b39ca64b4f77a0fa4928186e51e8f88bfe86173874702d5406efc05afcbb719b1d435f0b9be, 0x322e5241428f73fa60c3d07f59b94ae8c61c060f519f37bbcafdd0a155c0ed8ea5aac8c71513ce85fdf3060b40f0b41e40f2e97329ac544f))
  ; ((true, 430%nat), (0xfcb9db72ff68ee5a733a89694f01c33c8084f6ac87ec053b4a2a4d2f7bee01e52e66c40f05ed16898b07e25a1cce198849a140d4967a46f, 0x59857759f66b4355c6ffe733a627182aa4bcb1ae575d992a123bab0e29d9a1e934a94dfd173e6547ae2b9d357d04091190f40675bf748cd6))
  ; ((false, 427%nat), (0x9df79a50aee330e6b211bb54c255ecad896b8d03f7f6fffb86b4b5b2fb61be62a98f9a18a7a5fbae7d57c3cc46b7de3c973effd233c3944e, 0x6dc140c33f7427ae2c2591f3f402da542090ae44a9d9e461e89f4e7d929a6fc2b805dca69cff8314ad880934bd64052997f5347d03e7a364))
  ; ((true, 425%nat), (0x640301ae44da9070163d37fef3ee5fa502b3cc5bacc44262167d9b39830c0c687e55338cf7f745003204c6d04d2c8c5dc3b3891fc3430910, 0x6a49476d792b66e030760fdf34b82e21365ece6e1ef2b7eed628612b865c6f864c25bb8a57f8ccacef41167e3a86d569b4da4f82328c64d8))
  ; ((true, 422%nat), (0xa80db537a38ac323b4f46ba704966068f24e7ef195e08ec6f696ed6147e9fdab77bea68c3cb056a439391cc88ce9f53efef874d12ef9bcb5, 0xb87db202e2bd041d114aa4eccc94f77c366b56284df0a7a3caf9ed1a7ace0894c60bd48976a7d0705abc240763acce1c52063cb0fce95f66))
  ; ((false, 420%nat), (0x7962c1527f645fac2ebcab1afa127c2a99e124b69083cc728981bd0fc6ffa84f006aa51d5734eb452b8db7807b5df19021ebfd9e40d3d96d, 0x3c1992bc2e00d88790ad93e0accc803f5d39ec854b3947a5e126890a8d0db584c4c59071a6b4bb7b6edccfbee73ee4ba619de929ca946ec6))
  ; ((true, 418%nat), (0x22246c04f515689e365bbea2526d9a5847bd1fe72dc8b2b04b4cc5c7a1d93e201c318817618ed008dc9625c9567e9b380c362c093616b601, 0x2edf0b9ba2f3b08dea29452425159c33a463a135468bcbe86efebfc7626f2325c94ff145ed4bbf0ef647dd56b74a672070ac8e655a5bb630))
  ; ((false, 416%nat), (0x12f03362f69755b1e76d6569675694aeb82098d09bbb8577fc4f05faa5a22c2513efe86bd06fb6ab3083dbec475c74a78583abf5ef3f8af, 0xb562e65ba8969cd6f3cbf3fc2a6a345a34673f888efa30e10420e1d791d16dfa252a60a2020b913c2ecd87ece73d398cfc303912e6b18f28))
  ; ((false, 414%nat), (0x8f2bd00ab81417939e8fe6a060f2fa5809d0e62ec9395007fb446f03efbfcbb2066b4cff53caf5a84f7659d94822383d9d79ea85ce9300cf, 0x1615d3ff83ec2562735caa04c2ae398bcc623190fd3f0787ef027d737835b9ebac88fbcc40fd15b2211ff61b28f20e879ae56f83a037bb80))
  ; ((true, 412%nat), (0x4bb01c036a7fe7f56b85d3038254bf05dcbc083d3d1c4ab1fc4de26f5969c772e9da5ed6aca84b038d644fd9832556e9e8506d05eff6f8b5, 0x814771a07dc305bbce55a98b6e8b3185bbe4168169ab7968885d8a78e57ec60da4cc438b2e736b51168541c3428c054e844ad8a4e9845694))
  ; ((true, 409%nat), (0x7901eeeb039155b548ea4724cb5039286d55d2ce4b9c179019d548377a91f37db10927cc3f5c491c11af1829aa7a76c6a1fcb3bbae45c4ca, 0xbf22738a2bded5ef73288e3b05987edca5b26f791f4d8efe1643ec660b8aefe06c839d3b0c9bf1c83309d9d7d19398b8a0ef456823163e77))
  ; ((false, 406%nat), (0x9fe297bcd0b2891624c5e8f6a012e65ec1f1baaea5e332cc27a24b67427e6929d0fde591ec680bb6d76b2e8c4ee95ae5f29519b83141e882, 0xfb9f2afb79b3b701f4641990ea41d50055845d6e3c57000b27e3ea3d8a80813e721f703d486c18ff0ef52f43bc5e5f17570f7116a2a310b0))
  ; ((true, 404%nat), (0x952fa1b11e921ca3286e8a059cb183888892c80ea938c276b214e71c480fd968f18197a84ab6ff615fd52fe09bdd10a525ac58cd18dfc94e, 0xb8a89c2817cbce932bbb286c05a12841b3a83613257e3a7c909f94f92c88c5cee27050c536268f8f5a1ec97b8771919f8e0a4fd62da1831c))
  ; ((false, 402%nat), (0x129bd2d54986c63d8e642056a38b7275a7a3c4a449386d2b1030c933cd1712a7e06f2b7cbc23b83e9316899b725847549a3ba3f46c38b2e5, 0xb41c831a5775e8e765cab51902de2b651305c6d57cd2e8d226add5317495073c803ad68fdf63e7257cd2a1be8c136ab4afbf3462eb71067c))
  ; ((true, 400%nat), (0x1a66b9c5154a2a218510f6f5b80416e3d36bd13c07e1b61671640819dff48edaae4063601ae520ab4bd37ebe9fc17911fd34813dbb3a510a, 0x7257d3df6ebcdb9f7c401a587374633d0e08928547093ecce9ffac8bbb6d6630470a1adf50404036ea52987c3bc552c0423a90855173b0e4))
  ; ((true, 398%nat), (0x843a32fb9bf3ec53a714b095ae1a8f0d2e2d1116f38177d2683aaf4e2a209755db8f675e2f6294ef624a28d8e26816c271ce6c439eb735c0, 0xb33e02ffcde585276b6dc8f5f8fecabd70cbffcb7a7cd397cd0150adbbfca96483a0bca0ac40875d52b955dbc6e29cda749792dad5fba0b0))
  ; ((false, 396%nat), (0x28bd98e742cae8c841f92720ad8e62f7ac0d7c6e2ae236f5e8357d55e381c9680a76242f62f9b27b96fabb77affd4baaaa306d01b93358d2, 0x8bb533771b3d8a7712008baf08b83e03b52523302a22b01d8bd79aa2453762c2ea2f2d75420be9ae292af77771c21da981bcf4b68db045bc))
  ; ((true, 394%nat), (0x6c2f670b391fe8be73c02196c531710a1e54c6056b503c74e080de0a127d96879b9c3bb8fd6a4cf91c62075a3b3dcbbe3ca7bdade19d5200, 0x61b8907a142719cc5148f4b05b8aabc80eb436fb4e09f524768921f90107186eb13e0df7fbba7093f293b7a1ca6cdb8dc81da0366c769f29))
  ; ((false, 392%nat), (0xb4fa48460a2e19f7b9b3b9bbc53459d9e98d94e2cb4059518563ff35b62f2f048f95d88012d8a5239039b35aa7d78b434628bdd4ad769121, 0x4d295c4fcdc6786a90f4d40b3c2cd5475623f471e3366e221123533667732fe0c162c7eb016a6f6e075bb33dab563ad572ac0e351f61f0e2))
  ; ((false, 389%nat), (0x4909bccd0869426a764c82b5bada1bc76a76c1087aa7875601b55d22fab37495001b141df9c1d53b619c687b72e6fab58ce93331f05063c, 0x5692ac4040629416c5d765d28387ad8aa1c23f17b4861358ffaedfe496196f5fe0d4c7b47fd76df461c3674a972371316ee0ea3ab1e01ac1))
  ; ((false, 386%nat), (0x48a4b6b8d84c9575fe49c4cf4299992c9b83a7db0a940284e94ff41028324d6d86b12b06bbd58367473de8d562a899481918313315f951e6, 0x5336119535138d6345b4a442a92c31b4097a5f4f9cd3a6cdbc35b3a67b311dc20a0af6749e0605b8306e79a3898ff23bde3f83091cdac826))
  ; ((false, 382%nat), (0x3844a1b24639e955949b7df0ace866ab797af465ec2e6caa32f6e71f763f5ff58d25ebf8593414028569312fbb78cd4e8b762879b882a8e8, 0x427498c3dbb27449f7407f49c36ab8b3ea1c604db203995b522e1f8a5ba474ac581568b0ee687742543266bf5fd914d356809bf10e8a6008))
  ; ((true, 378%nat), (0x88028217001d83e5f22754672b3768f3cdac0c6cabf4a0ce6359a0b08bc3d49e24a77f92abafb485048e2ea4faa99fabab25680a4539c435, 0xf20460d09bf2634eec3bf7bf4920788be46a2913c2288a8f425feaef8a3b536305750f5a6929fcf3b6599a223160ed369090dee58ba69ecc))
  ; ((true, 376%nat), (0x27ac6ee8312b4f930d53e5755218bf47df3d88a3d243a463c7e71d7a7cda327e6553f1b588f198cf79452991e7fe94789edb15485d9478dc, 0xf8474c67244932fcaf30e63b30d1acb40459a51a766c137b27b85f45cdd0361a89a690269c44b63ec3ee8ac68901441eae8210638f0b813))
  ; ((false, 372%nat), (0x3d7c9a1377445a82df3c94a9d4f4b69513e21ce25c99d794e1f8a80594c96dc342a278007dd2c47cfb4e06fd1253e47cc094280ce4a630c4, 0x58b051b7290965c9a6edd514648a7ca5bab552976733713d0279746e3820447c9612e4cbf61ceb8ab25f8d6687d1550abe9a927018b22014))
  ; ((false, 368%nat), (0xeff58dcb58dad2a327d58ff8cd132dbeccd0f2647a0ff5d57ecb0074cd548ae5077bf65e9d25feee63d1b7d994e0a786b9005919cd578c03, 0x785145e1042c5a188c13168e4bf64942d517d76152557a4e2e14f6506db9489801302d9670da7152c71c94e51dd5670868e6b1d71b093fe2))
  ; ((true, 366%nat), (0xf3864e4fcae414ed50b410846608bed0fcf93f6ac58946bb3847b249ff004f0c5ca90a8238443e85728462a1d075683a886c6a7fa71d5605, 0x91a3c6e67e19d0a3a101c263ff4e8e35a6e175542dfe811f32ce5619934b59cd33e06bf06e099bfdff6a251fb7a3ab10439a1e5f00e6713f))
  ; ((true, 363%nat), (0x129357d1004eea66f0a7592714100b4ad8e97ed4a5c1a4f0ad4522227efcbbaa08ea55a22ec035a2db1b1e8862127fc4ba265c7923059032, 0x43ed5f682da85df365b071f8439cac646660fc040b64dc05cb618df280091e592022d8039b271616c58fda7e0a84e671d9f1d4c21f8a32b7))
  ; ((false, 360%nat), (0x7c523320dc6d382e6397dc56c24973860f87e2b870e7126e324f6dfeba194d7e2c415d3e6d7e85ca9a9bd337fb626d86a367095f5d3bf335, 0x50d7052d9721c279860c8702d1509dbc11b852aa7e87ec61b523f55fafcd8093ae8ea7c19f966979b1d32c5a5d90c461fbe7003d9947841f))
  ; ((false, 358%nat), (0xb20342e1faa102512739d92306199e8d8c198c3cfaee5b5cbc3a9fd36f20afe3c716be4f390302d24bbbfb46b5771d209aed1ddc5dd433f2, 0xe6e78a7baf621c0b83b678d7a8b05797144aadcb005889133ce52895b3aae2760f55cb8650b7aadfd8ab2b3d9d8fe9234ec081deb4491e6d))
  ; ((false, 355%nat), (0x1a17d014dabae72ff43e8bbde939c0ea44bc61febaccf142d70372ae229410a9de1e9ba5c58a53de6231c0758b2aaf04c0d0d5a28e24e16f, 0xbc02671871bb3dc567cced726fee1624189bb79f1e00c51fbafea36fe884a65d2d82af243be6e616d6690b64fefb2958b4ad20853d4317da))
  ; ((true, 352%nat), (0x290f743675989864cf49c0e411b135219fbc01a4b5c92df2f89e69c48c0655d915f7f3fc5d9b2696497d0014ece8bf9e81a87e8b0ec794e1, 0xf9d3fd65438041c00f592fc096c334d477e5688ec1da477b448907076660f99891baaa26b10cccf87d78b45b3bde77b3788bf191bea72267))
  ; ((false, 349%nat), (0xbe51e28f1bb9a38da26a0c6a6a7578b1c96e4102455d97f5609c56df826f31353ff558c75b57ba634d5e7828926632fe19528336edcba9d, 0x9b3d280eed4d91eed0b4c0cf6e7cd1b316cc14ac9eda4576acee5155f31b673f135933beec8ac29a96e2a1419d86567ab9d18a33c81ec7d7))
  ; ((true, 342%nat), (0x2fee03ca075c8df83b7307a049470bae7b8b76771124ba62c4a63699dc08b477e0c9efd6687d6751191ce7fd4816b327cb268dd1a1dcafd5, 0x78eec7099a943fa054a8f048efb180124a77d4d1c6c909d040954334f2fc1b77dd2c1596a52211b9541468c4292b816e10fb4ee158f3b093))
  ; ((true, 338%nat), (0xb51a9ef2f46596ca6d32b2943451bb25baf9ad1699515ce90bab60723ab1db417c840bd62337a09cea562ff7cd5bc2601711ebc58e8b9de5, 0x70f2bea3d4c9f8e4103a9e2a8d11ac244ed0475fc3bd10787e0b5e631416515f020ed852ccb2c3d6f1fa0932a5cfe917f4bb0f945f28a9cb))
  ; ((true, 335%nat), (0x960677f319add886ee068f4d707634469457e1a65bd2dfb4df1e3c61489c4e55cb91d130d6a08a00f79f61089c3482e792574847c0c5945a, 0x29a5b46a5fb9a1426e9f3943cbb740736dd71ed0fc8360a1a8aea19e5b342fafdc9405716d7cc1d385fd272aa094d67a2f3bfdb71bab22b6))
  ; ((false, 333%nat), (0x46f3248d1b6e6cdb18606af20bd84ffa7c623efa6134ba32c863aa485bfa4e0674181d1aebf0caa6d2f68c222fd4f7966fd575bd4e240259, 0x5db15175367e42b63d648da58b1b60222a7c86fc62476c697e4f34ba79b77703f0a34e1282203ce13c5a271751681cb627dde73607b21bb9))
  ; ((false, 331%nat), (0x73ac6233ce8d2bd8f0275ccd27b9c5c20f8bc2cfca9fb265e6e6bf61f53e8c82b546476a6e45a26ee11b0815ab4b86c1118868acdf9693be, 0x742e67ac5949e0d962db18879e7868d94c5a60125cd90130ad8df0ffa8b0bc19f6a0ebf629ce45b8b89d6e53262e1f186a510e1224674145))
  ; ((false, 327%nat), (0x62b79f12c9b11bf73dfb7a7484c099f31e300c38a4c828a2adbd82e1532787e6803c5c2639d15a4faafa9d8b1784c2b8ff4c0492b19cbf7b, 0xbd0e8a429c8cc9410eb8f9bc706bb44c761d0ed566ac974d5a4433053035663af12fd2cd4fbb85c39427f60504d6fe14a0d01526a42adea9))
  ; ((false, 325%nat), (0x914253332321e5fef6f9575c68c8be13cadc09fffd50b9f64b4ba3b01251b0af925c49a6860bc8cc66f9a14237a073044b9ebc2c3b30062, 0x6ac63884bf8cd3c72d2758728172c28c8c0d89855e00967d09e76afa2abc21e05374e3a8fa0f7c073190fdab074b344c56c0640418982cd7))
  ; ((true, 323%nat), (0x609434fac1188d5f5f6078dc6f88f27bd354f67c13e01c70ee381c095858f429554a0d7aec2c9f84e3ff4fe05a68c7ab21a5108aceb1b50b, 0xccb677691afab895c69a9aaae578ad9a2dacb41c33fc41f47b0c7dacb2f07ee43b1234e2ea1f677df9ccc6a06ae52ae37a22d6fed6b7475d))
  ; ((true, 319%nat), (0x2e35e167b78254270049674a40e6fe1117ee3980ec8ab7a3dacf84839b9a656f4b2b2463b2c0939510f0c3ee91e0d13327ac98eeeb260cb1, 0xca10e3a3fff0733d2d4113d2048d8ff300df564b355185ca6391af07d1b7119c06c08a8c9d0ec229f29a140e3b4e9ba35301233f6623dfd4))
  ; ((true, 316%nat), (0xc762b3d9cda0014b4a2453caf15381a1f0e5d5a4d79a19730e460bbd8400522c04f39d6145b2bc955cb85ceca7d2e1cce7278720beec174d, 0x334c287b3d428439753acd59c078195a996927a0163e6eddd2022f9f7dba20e49aa39cc45b5ad78df6c9e354899bdbee199aa113509fdfd9))
  ; ((false, 314%nat), (0x76fae63a9b67d4f7b040cf6ee19b7478363141fbde13fa0d89a256884a6c732ba73c62c3ad2ff5bef009ddf779a0978dc262f5173b8ad09e, 0x39f4cc0649f3bac2e6ec1981d2f73681af842e2ae4f9f37e88597c27baf25d54dfeb68a7cc83bdb6c8cf47f7122ba198dee8e41457091276))
  ; ((true, 311%nat), (0xc3046a5599b7c05fd3b9c0fb20d48872802402e437900da4b3ea11374dee03cc4b5395db665ef229fdd42e7e4ebb565f99e57121e6dde970, 0x3d783d5bf4158cd2d22be90086c2e087643532e78ecf1b786ca30e4625a6332add3dc1e59fb7e209fd3c4e45e91186ecfb2d74460bb25f15))
  ; ((false, 309%nat), (0xff1f78e8936dc8703cae36948c61c4bdc21fa06fdf2fd8f4e32dd76d8dd7e9afffb3fbc0a646130d4f67775da95ccb7a14bfdd118252b7c9, 0x98d7707c5cdfe7e31fcfe3f7c3cf2515046a6e9164dd1bcdc464260294212e9a9d1c0e666638aa0bf0449311db239e448be7fde757a4b85))
  ; ((false, 305%nat), (0xcc26c3d95aceebf156250c23a656804fdf70f9897e4fb438db7ca01927e92b6cbca64319e234d699e2a57916789ed41dcfb3c58de71d6b06, 0xa6d1a7c64e15e4f5b0064e19eb511772ee4cfeb0be679d8ac651de78cac6aa0a94229adebfbf8250be0adc5e42df33b7c94c2f53b0494449))
  ; ((false, 303%nat), (0xe12ad3de44e7cbffaebb55b6b9fb10310708c0a2abcc2c427503162d22f12d88510541f8d96352e983d2f3ab1cff54af236f0ae2bc79498b, 0xb29a54dbb07fe9405c01cab732634d7864cc8fe5d14d5a6e6a1a90bc3c6e3f8f2fc1ad6c203ef4dae90a550629ed4ae015cc8d5f18c5aefc))
  ; ((true, 300%nat), (0x5e5473f9c68f9850f32b455a3dedd20798b3eb0df0599e2210c07b31a1103380a015bf1f3500738f654f92e3c23828cc5e71e3dbe662373, 0x650a939fc333677be94992f181b4e12df24415ceeefa8eb8dcb4ebd07cafc0c30093ea085732607e341d74bf901acd8fe68ffb29662ac342))
  ; ((true, 297%nat), (0xa823304ff69ba38a5de155a7da92daac5f884a4b3f0685ae0cce2bb12fd466eab6bd8ffcaadc29f93c4883fcba68d493f2b47f15037526c5, 0x1d08875e6424787980a7e31d60296910603460c592be321c20a1999af62d0e80a92da062109983c6c23e35f8da98e014f51ebe419cefd530))
  ; ((false, 295%nat), (0x2e9a3338de91c880105bee6297c280aaccdcc747bd7d24725cf45cd0aaa15224c34e900b44fc3573170c787d78e6d1b2b905465c243fac0c, 0xe3b60c5316d54b6920a123a9687b1ff986de2bd19488d1f24df7ec67bac9dd109ba330b117987f3df07b52623f05f44d8e596de742088b2c))
  ; ((true, 293%nat), (0xa48959029fd97fdef0ecfdd18a758e708cd274609391d6b2f45b3121150e429a04e1a7028db14c0b0e989854caef2b8536557af54c0eae11, 0xa41e6c6d59ae863d22fb86693aaa9cc985de06149e77b6e26483fa09e88f620c616e9281e2b9a97c6f908079477c0a421c8b2fcb714317fe))
  ; ((true, 290%nat), (0xdbb6b72d9aa9c43c4dba83dcbe9cbcede9f644b26389bcdb6d95cbb9237ab935f8231af4662989c238534714cc561886a209a3001b5eba28, 0x7d95fc956063fc1e13413dd45b9746247fcf3c02c244f92e909d18c44b3b2b3643501b5f1408fe9b3438e228803617f66265df12da08b921))
  ; ((true, 284%nat), (0xd445edcc51cffebe400951107b7dc1c3eea2bf77bf641ce64c39555fbb44a9d2a2dcc06e1bebf6918774fc491587c4db39df440082f6bbf6, 0x323020a972b417ac5699569d104356e7422ce16c0afbbf06fa78976733b3a544dfc1e196566c4fd8a1847aa68d1423195cdd5872c5b1fac2))
  ; ((true, 282%nat), (0xac247e16d21dc55d7229a6b60c01af1c407efe594e297b2542e2ec6adfc9ec66a81e9a4dc2f7013c6740561d9dbc3bdd92b2a1c6e86a8701, 0x9ddcf4f5df4f72245d4adfda71fe48c3caf0ce1a3058f9200cba9a0b945a056b579e9d0dc07819ad4785b4719cb35fc371a4390722af7c68))
  ; ((false, 280%nat), (0x137c982fc3b10d1505a4f78f3f5b6f5fceb00c1c0d1a91334bd03427a68e32750795f1e0c11eeaa1b61bbd8098f7f3d709a3ec2f92fed036, 0xc21c393e618784fd6a570cf839cb313597a3e1dc03aa16ee0ba2408a94bab11427068bd5d54286123a69b07df871e8ec470b978d46c144e0))
  ; ((true, 276%nat), (0x276ad36bd4f2edd34b5ca1167421bb8deb28c86b708962315dd7d45b452f2ad9c80022bff71353040af0d745d1c5236af4ef0d1a5d82dc28, 0x4010fc6f50fd5312132580376fcda21d15a4c8a269505706f526064fdd9f6d27af8ebed283cb15bf4ecfc5524c6e2c0bb00544ee8a8a8d48))
  ; ((false, 270%nat), (0x170aba926cdeea965798a55830d95501f23ad0d9e570b36c1bceee19e711e6deaea59a40e27b2b6b94cd8a2405566bce553fc673fee205f0, 0x1623ee8426e2446323eb28b6742d6619b9411fb99824e4af463522709498c8abeffd12e7444a7b2f9aae75f03e9440e792038ec0f4535f2b))
  ; ((false, 268%nat), (0x6e7b78f8340c5d281bacdc2a1ab0a85abe569656d3e773d358ced8bbb44eb538dda654460ec08f8ca7ec1b51e0e58c682e55d68c9cb33e17, 0x3668a12bf1c364e621705924cfdc0096f8dd9956c9b2d9d0e137b669ed87c1664c67027b926ea663c241ef80ef2dceff36f99f92003d24af))
  ; ((true, 266%nat), (0xf5619df4ea5ec82e975d5e5727d14d232ed8c9816373fe60d306889fa53a53ef7d1c35c14e8bc91d7205e21a374d586059d6fae2f5f905d8, 0x82765b73a22c2dad76c092349eee1a66555429720afc975dab624372aa3c52db5de7132f7a6f027ea0798ebeb2dd10586c2a94e0ca81a4b5))
  ; ((true, 262%nat), (0x5e6e03dc09edc41ad5cf860d10aaee9745e5209c6b5313cdc7c6dc74f47f9b17807cffa75acfbb2e56298349f0d68e921e16f0191c1049c7, 0xd72cb76c1d61dfca5f6ceeb9935c9d0d9f000622f06a9adfa1e97fd56cf98695dad30941c4e37232a9b52d8db6d5e22da9613fa07635b759))
  ; ((false, 259%nat), (0x3c22daa0c05ea61ecf3a020beb88913a2094bd59e25dbbbf86970242505036051956525ed1bafaf91c595b3ef261fb70db665dfb6666d291, 0x4e171cbc56b0230e192ab35036128528c2be806a4e3cebe5121ffaa21989932f7e40b5a3eb8e98020738f91f24f8a110a8e0ae74bf675dbd))
  ; ((true, 257%nat), (0x5389216489b20ac5ce56764cf3e0d2bbbcb2d1b1df9dab9a7d5f72fd865ce05cd1e2194104d515be7b38b51f3ccb158eae22864ffa705791, 0x24a13ec0cd6cfe2bb06a444277a0a2261471b2787ecf69d9e8b408cde305cf918d0bd2e0eaf16d8f8739f149dbe066c943d6edd43d69151c))
  ; ((true, 254%nat), (0x377fb8296cd1d6dbeae3b32a30ceb891029dcbf67ccb5f02c20eeb83b7430a1e38c1cde2f7aac42a00ac8649ea71abe99afef4cbac691fac, 0xc55bb9ac7c7069753b19a554fd4de3cbd5a3339098b488b11f1412c122426d1066be4ab615beaac933c8c8683f48d85cf4d75f1748b79228))
  ; ((false, 251%nat), (0xf77455abce66192c9d677c45beeb74f6bc697209cb13276b1db9dee415369b18896e7b7839f499b4fb2c12f114e24442b47d1d2918b9c025, 0xe2de97cdd9f0c63b1d37630590b5792da8a1f91264cc519a5a4612b268fa975516ae254bd85e9831a1495df87766a4173b266ad031fee860))
  ; ((false, 249%nat), (0x3885465eba2c4400d873476f64be86be43e48cfb1cce022a2cb7e1e033fe61d544451cc51fcb1ae84247aff56effa37302b90fab75e00aef, 0x1a5f98425cc492e06fa365a18abef1e7025880e0a50fe821c693894404ecf48531aee09312031f3b16b5eb9061a60c6f84440d06fbcb21c0))
  ; ((false, 246%nat), (0x36d418ebf0244ce26286fc20d06aaf1558411bd3e93ed27d1ba301f62b243e7aa825bda2c2ae1bfa04eaa09924ee881d91dd359fc13ef61f, 0x3276b200c00b27222381d2cc5374d7d74f549529b57c34729fd83df8ec55d1abf40cee4cb798dff46ef8ceeb855d04972ff32ecf4f032f21))
  ; ((true, 240%nat), (0x83e1c4bd70eddcec7e9b4fbcef2760dd224ad0690c3d58507a6450e581ec7eead5adb84fc5d0ef0b7b230efc7933bb92f3dcc04fbd5be9ae, 0xef39879685d46dc7a6d1bc16db48068d3ec7a05e8430d25f061d233635a9f0c5e14b74f568fe808aa6f98499b2231fc5da374ab697e53ffc))
  ; ((true, 238%nat), (0xd7905c58c1992c751acb9c27af632438b9f8a205d598672fa2fb384f76e08be32e6245ea8b7fd7242884185db3065e9ebc3c96f1174f50ea, 0xe00376bfc77996418fa5475e5b806b68be47e855a553201286a29c20a0ae01c3b1a3d2d7b99f72cd30fe65b0f5c727f946cc6d5423cd0253))
  ; ((false, 232%nat), (0x1f5cab7a6d9460772d4c4dec5f37b1f12423f2f8a8b64f5b915a8eca25c8bc816ca1042de0df000b13672119163b656847dce829e4995d41, 0xacebbc7103acb9565ddce2553ddbc7b90e25c5321f4b4ca2b2b7aadc647b8e4659ffd6698c7cac92395722c0d06ba911636ff6632a079d7b))
  ; ((false, 229%nat), (0x4d89ded8097d11f48d34e54c02dd33142c79c6da1849adf78dfed870ecd5441e249551ab79b4939df88fec39b961303a0c03ee1aa4ac7d90, 0x9a5a8c2eb0e4e6248698096a00c8c53a489963d8f310d6ed0e417ffb3cfadb36dda75d45de024d340a1531f039c01be8531aefdf64c4fb41))
  ; ((false, 225%nat), (0x956ba0ba45e6d9924356b92652f53ac9d3287fe08d6771b0524992663c4fc939a9864ddf5cdf6a3b10ad9ec652837e9f6dde2ce581faeaaf, 0x4597330572885ea35d21ccd0b35e1cf64bfa01fe3337b1724c0e41ea5f1354914990c269eda1a22a8072b7b883b42b2b8195d5a6ef9d8c01))
  ; ((true, 223%nat), (0x20b1444cf2e3828468488f50c05a9bdeea9a934124db53e60cde269fae310f521a038f0310f9ecd88a09a2a9e050d84532c60a4da0c90a5e, 0xb1ba52fd40c6194e79a79ec4995ae1b5ecc3b67fafc45029fb7457a06670c7d9482b6bef378ba4db93567cc433a13ec621d442c2ab837065))
  ; ((true, 220%nat), (0x2c7275ce43bd4aab5f589202ac5673657dbae47cbc5bf3ad8810e5999268bf4a57391f537e03910bc682455d2a56002d8212cd2d47863a27, 0x7e9ca9104203c3d229d2f79e4f3f049c0306e26cd01220a97c8e376c57d67ed1738ae9261812d24dabba3c4a09f5fbb222f56ce467ad8217))
  ; ((false, 217%nat), (0xa990815c5ed15aa8152eaf319d79efef4b1ab206cbf025c2a7c714ee04676cdff47bc8ec28e5fd02f0bc8c2651b7e1f179bdc4710031a16c, 0x85d8d7c55e6405087acde3531a8068ecef03e43a555bc47e0096b8130a6f1b86ff1db87befc99ee0b807595b4ebf67493552af258df0f687))
  ; ((false, 213%nat), (0xa8684cde2117904843ce3a73ba3bf794e6ac30abec7dcb65e728fab0b7b962db733c2f9a106f2d1951c39167539a464e298b138b7c5fe77b, 0xb4d84915b8a825d3d13aee4bcb7ace37f1659c636fef05f2efe7d3a9357f183a7741c436480d74f538202ebfeef3494ac277e77b1b37655d))
  ; ((true, 211%nat), (0xc4b064bab5aa555fb3fa6ebfde543c9ba74829efd722fb78eb1059ddf91fd2da82b032beead40deb9a46eb2baaaf81e6f1bfb9f35dcb4018, 0x73ef9812b61bc73b49547b6268a079d39e81d6c8050bc021c0d46c7ddbfbb3e85340d7e50b71e51402dd346fcdbae545f5e8274fc153e8e0))
  ; ((false, 209%nat), (0x23b0fb73ca9e5eb55a5e8dc852fa7f97d58dda5ae9d04f5f155e536fa82cb9479b7cd38e28179ea876d9eb9102d785e019339ebe250a1d58, 0x69f934f6add7bf5e6404177b40d230bd7331c2de0d424d0be5a0b705bf9347b2f1ec7ea81f5a19b2bb83c1b2143489dd840df729ac960fb2))
  ; ((true, 205%nat), (0x4c8cc1af83e93bd4497addab70ae00d883bde487d2560d63b1a1c54e37643de3e8f5b6829e39a8f986a38618dfff3f8fa1d7defdba4c92ac, 0x391df734c524ad54d0ce57cd8079e5b03e4d020c877767b9e8cbc0ea0fa396a9a1f2cdef9534e903395b19b334d6708e64e4b96466a8c954))
  ; ((false, 202%nat), (0xf6669b0b348e4c98d01ba49defca28dd1fb07f84692c5509677e17429ec9d3d551f9dadd8cad187ab6e27a97644b8e817ffd2f385d0836e8, 0x7bdd53a7ed3216bf2e997388839d4af4860fe1b93977224ce07a57df51ae0b3806ebd45e233a622968a508ec437bd4747d700ff23860d32f))
  ; ((false, 198%nat), (0x64aa32562d2229c2a3e732528f4a54fa2937033a3189686227d1d683356fbc9290f45304d8de8d898d61e7d579365639dfcaec38b9fe7108, 0xe925a05e264300cc084d52e539891eec2a19f91d8b5233bf7caa3a0ec2279e8d2e771f2b27508694298ef13777b170ecd1ae0ada2f144347))
  ; ((true, 193%nat), (0x582bf1e61cd9f503b6b503188878fb58e8ccf91993e0dcc8afa5a776dcfb534cf02bb4670371ad2e2a6a21d04017bcfc45aa40fd9a39eadb, 0x15fd93ef252c582a15a9a9ed27a649b75d1cf309e69c228b3e155d3f21b46b9bd7ab83e37fcf7860455b2dd3e8de92e9150ece8039182129))
  ; ((true, 189%nat), (0xa035e27614f13acede22816d7e48fce2777a62360e0fab15b8d696d93916f48db97e532523de4da6f5311aec86f2811bcb6dea06a9077b16, 0x17f8433d986770c780cff14c04f576ad9ee493b59337655b27407c6beb53fe3a984a6e179780055326fdd36d5353ed53613f47a0e137cbbc))
  ; ((true, 186%nat), (0x2a367a793478ad711482fa8feea0b427b32484f07a9c7cc20921d0e996939f4e9dba526b961a1e4f82190bf6e3a131cd8474ad844aeac864, 0x22049e23be0b7c70d19c65c2ee88e0aa3afdcaa7c879faa68a036317cb99e8a0e37746f82b080a61083a23524028dbcf00136606941bb5be))
  ; ((false, 182%nat), (0x36b77af109ad36ac69523d422b58ddd80eca85b2b4d54a1b4b80a9c870a817768bd2c3aa97a089d46378c5f60ce7bb8ef28703682c77cbb, 0x502321bc4ff15ab27edaf192112902d99d991499a6626493e989126e818f2ac235f95624bbd180d468b213fc5b7b57775bf156aab575e77e))
  ; ((false, 177%nat), (0xf52f4c1b4da119ef13a3d36ed759f7a24e1103664b0d4e32dba21cb7d3156af0c039714db344956c6c4895fee9935114068bb9c9c5065d58, 0x1f99783063a50be6e775171712aaed85eb7989f9e17f23f84dea95271f64751fd92b163d802291e1336fa4b9dfab4abfded15ffa328def99))
  ; ((true, 175%nat), (0xd1853da3b6cf2afdb01c6d3964ba84958a5b82ae68e7aa4aecf7ae376ff6d51fdb94c0e9f718d0c99e08a9e644593aa71252632c6d18150a, 0x2c5cff846edf872a6b4eff3af893e5a23aae68b06c074089c17af21dc33d322723038070565ba5bcd1cf9aca708806e038687d153e10bd83))
  ; ((true, 173%nat), (0x29a8eef9517e64ae8c6c10ee2e0d3811735c82bb1b555251ce9a76a6e2a92aaae7151aa59d626ecd7b106349706b42f0064037326af19d78, 0x1b8dc8bdf0f46f37feefda0426483c495e49f57a283e2331bfc37ab02e9c7936c07fb4bffdb5fe2f7ea20c3d3b7fabdff408deb109cdc818))
  ; ((false, 169%nat), (0xad602ef163fa6d86775a3e86a9074e32fd4d7378c42fc75077292be20f708cf961d432461ddf3cba2b07f0da244df69fc1db3e7bbc2496ec, 0xd4736bf57fed5816e35039a84ebc2746e5c29bdd4f379a16cd24a45c8a5e1a503685923ddf71d5d05889d8cf03a98ca5817c21884569fa9b))
  ; ((false, 167%nat), (0xa1f73cda4f8f7fe299b310207328bf8b752a5893955b9798fa6b13687ad4fc607426183d4e1116ed00cca9345077ebf2704cf2d22c6ed59f, 0xa3eb9c7a7388713e34981a995c785f1594a1a7a3a2530a8687cbf46d4846a0f53243139a8d70b0058eb24e2780161ee7fe6addf3500282a))
  ; ((false, 160%nat), (0xf8bf9dbe57eb505642d67db20041704357f057b63b854da984dae0e74cbc8358482f4a3e88f9dbef58918128533d1a3ce039af98ca6b2e82, 0x4b5f7762cea3f013e51c140395f23652b31e5b284e6317431d819a9b0951f54f2dced2283ab27ae298bccd435eec9b5f81140c6352106dee))
  ; ((true, 152%nat), (0x16355def896ee488e3ac3e1218b813e603069f307686fe15260936cbfa222165fe73247c93fc0cb09a40dfd2865f6ff5a45a52ce4de235a6, 0xf643a76a541199272fbda534398b5370c2819ba343ff1bce15bffdc073f22ee7857e871456a404c8eda418f2093f8919110dfbdd002248c1))
  ; ((true, 150%nat), (0x85daf1427408c12a9e63cf5ed85fe2c9b379cefa9dcd5ef63ae1b7538b65a257bdad8f44e8f7c3def33676aababe921d7f508f756ebd00a4, 0x3266b4fdc07b1f3cfab2a30e70d260a36a9b705b463b5291aa4e9d0fda04b93430dbea3e822e73af5f7e2c6e71a980f4213f6cb462105e48))
  ; ((false, 148%nat), (0x3c0dbcb7d84d69ec0ad08b9c246b90b3d9e36219ee2031e616eeaf0b4ab480e935bd8d6b3528dc68dae760999a4434bb582be5ba4a5a5435, 0x2f02a726d10f25afa1304a06f46bc5aec31693ec44b101bd181338b1f12475e6fc97ac209c380f410f483fd2e9276b5204c45cdcc2c7bb0f))
  ; ((true, 145%nat), (0x40079d91d3f9e44917268574166a7223acfbe8ba5e178ee65330ca72ce1de6d9d7b4796e98fd89076dde9388f346f468e43039143fde826e, 0xdf0c0e722c5a1db5a6bc91c90aa58c0fe4a5ba6fa75332266715e8b17e7c23d28b9c3af1ce8111db7580c999d5edc058d0b24cab80420dbb))
  ; ((false, 142%nat), (0xbaee72099d6386e608d81066d9f2a0eafe40a77ff520fdcbc86e385292c8dcd7a506e9bf976d6c8852cedb57be0ca1b9041a866f1460461e, 0xf146e6bbfbf3edb1b290545624962413bd54327abf7070ee01964f8ba9755369fd0d7f972ee9ddbf1ded0425eda12164a2ed9e9a8de7ec0f))
  ; ((true, 140%nat), (0xa3dc5d97e232b6331668fec4c63b22c61064dea8dc5e7a7daa64ec58ef7374041bef6e2387adb961dab41ccb3ad7d86d99406ed3b58c47a9, 0xa10f9826a15169e43231065d4fa93033ef5f774b41b263a0e12e0b744e0ec01535acc793b3846cf5e7b6e12e3508ed0efd15ea140f0e9dec))
  ; ((true, 138%nat), (0x8102620d0015090d3fe5d3821a34042cc5cedf70b8c974cb273338155abcba5fb20aaa5c9c2587b3519a61fbda7b0f3f998f1cce1386aa6, 0x9d868f3caf918bebd8c49d4ba9611daf748cfa258d99aa670f80dc9d611b77f2dacc5ac74b265e10e5d3939785355f9ef5134e74194c3dd0))
  ; ((true, 135%nat), (0x469a775a239acf2583b560e0a9680b969399249c42d03ef72e4cff2d0edc31a5461b480a477745879e6f86649b76d092fa176769f28728b5, 0x676eb9770faa8f43d81b3c6e9628b93a52e7f631d381c21d44b2f975bd8a577f5c87110912207ea3f84a482e2caecf6387779506275ac725))
  ; ((true, 131%nat), (0xbb988a9288f8fee3dcfed240803e7cff92fbff393572cf260790cf97c35519dacca9ec83419d1024b1cfb2e14a66366a72a23c717ed446e6, 0xfd4d744f9bfc23551eac416426ab061f9e463efac2b612d6b0d043378f99ecf2daa804a8f5c7a874f0fccbdf962e3456498a191dd2013cfe))
  ; ((true, 128%nat), (0x362e5c13f8ce2b027ceca152dd63db6710e6f94cc2430996be96fba90b79ca3fd9ec22b75934d6637ecb08d0be62ca2f2cf304d424e4f71e, 0xcc09f0b0276d5aa39110c461298e777cc951b622dfa8a8f7d329d4acbf7847365f3a362f88a127b97a01382ade2235a12108877a95206c23))
  ; ((true, 124%nat), (0x9398f643229fe7ab9ae9cfaf214b9882ca59f8da4486cdd456242b678b1ebd4249df6f48dda60920fd17d0fbab530ac7a748ba552834bcff, 0x688287fb0004ac011789d09d7de3d333bdceca765fd4c3f68e72d029f3719bac7a9e0016cbe00c2e990f0dc3846e681111ad6a26203caa04))
  ; ((true, 122%nat), (0xb8b3cddfc4a7dbb858e215ed779232b0c834bd319df910e3a3c7282d8440f8673320d8ce5c1a0b7e45baee6723b29800a6db654a20020a94, 0x737b6c2db05f091f3660fac2a658366aa0025f14b7ca9cfc79d14694ef9a595a9264a29509f8a162d8f76db744af5dd731a482d16e0a9df3))
  ; ((false, 116%nat), (0x3a392c2f93d51e56ed2802108a6e5bac6dcb60ad55d715c1dffc60ef480f6b7f04e42090ec4c2000ccd5efaedd801a0bbf0e5d46f0ba6bab, 0x72ffd33a5b47a5af02f22b62422dba752e9be9bbf74b6f60f5ad96f699e5fc3707c964355caf7194dbe76fa85033e8ba313041a27d85ffff))
  ; ((true, 113%nat), (0xa2a3bde733185462ad7a8576ef3c3ae448a03ceb7678f60594a8953b963b0edda93f38e49b1a4fc49bd8029cdd6277dfe6a5982a44bca900, 0x21c97df1708036e06a3516e1d22f981d1e72332e0757c6772911be5c7cbe9e32440c5b434ec5c280f31e118080c598895d91f7f3f5670543))
  ; ((false, 109%nat), (0xc01fc77284ddfa832d449bb103f760a8fbfe08002e1baf771e7d333452080c9b3345b93b49ca8c224ba9567c9ac097db50e6086b514528ed, 0xbff10cc1e0487e8785dc48f41568154f1542fdf9b34573d2cd96c6014c67b7a3879693e6cf7efab7b4e84604c2e77343abddd8515d4c13cd))
  ; ((true, 107%nat), (0x87b28adb105176e3b00ded82a0852d9b230e8d70fd6f587201b826bd4e8e4b9e170058629a0b86e3eddbeb6e90161e1e15dcdb4b02b6f250, 0xd18f04a28e97ffe171f1c87424203f0738bafe77f60fbb7731f663590456bafc48fe41ef1e5a9f4b7ddd0de631795fddc6ad3816be12310))
  ; ((true, 101%nat), (0xbb5a794b881020076238986107a06f26fdddfc6e48885b99f538b679cc72a38d6ea1268af40bbc61f1b4718662239d2812645f71657813a9, 0x406276b4197bbdfc93c2495e419388a92afa8295a04f1d399b891ad26d9b752375f2392cbb5d5bab04f71d2851fe98cffb926f065174ed98))
  ; ((false, 99%nat), (0xac28f905541fec83e69b79797ca8b310f327ec13e9dde9bcd780bf19584431b29becd3aced9ebd63bd10f65d2fc0bb0831abe9c528afcbeb, 0x852783423989d313cb76f9e405242d63ceef3180d192188e7c5ca0a9e27823e208953de4bf5fcc2e83676e36ebbb3e57ef087e371ddb412))
  ; ((true, 97%nat), (0x2da2451f18b2592e46dec6f8e5eb45ce3cda23f52850578839c76d8757a49a320b7091c0f002ba0b3a7f24b728858a4ddbf975a26a8c7897, 0xc12a72282e290790804c4c3b85378ec05aedc7aebd661b79745cc869c9659bac3a835cb734d694ecbf87e1bd9e755fb22e3a644237380df8))
  ; ((false, 95%nat), (0xb76556fbc8018f717cd2cfcfd404e38c32dbbc7a8fde954f356dc76c0a76f5154c0a1e215eaeeeb692b159304ccf29f862ca4c8f24929422, 0x5858ecbced0d558f2349666d71be9477c68b2b9020fab1c994ecdf6049b30e79cdfe858dc04d254bef33cc94b63890e5c34dbc9659af511e))
  ; ((false, 91%nat), (0xf63a5395d43bf3edf99837b9264054350b2e3389f5795649cecfcfea5dc3f611e2c43d33bf7f943f9059a0b905e3bce18af4e7c6710dd7c5, 0x32b5f527efe855cec6d8ad08b95be11fea685e1adc7805525d14f932f16c75d46ca7c85d3cc56a40752a77d523e30c3725ffbcc36d106ba9))
  ; ((false, 89%nat), (0x5095263813f967389379c2d89d9fab5d1e006672c12acc0ede2546eddee94842e1b31d8208c6044d46bf786d17d8f7b8f7c3b8084c7eed61, 0x1b4b60c15967da1ea4d207104480eb4b19a3601d0aa7cd8501270e768e4c3123ff046805f3405cfceae0969dca7e0df2743157d4cfd43c3f))
  ; ((true, 86%nat), (0x8f4f50eed4284a49dabf02c7e41b1dd803bbd5b97a1acaed147b1fb25a836af30fb44cf8ffad470b7d5e20a825db51d52947a0576379821, 0x1a41abc5b8be3a94998c8f5d9bbbec950244a478e9833f63d0e0b222c85ad7cac26fa42942204133a44e922ac3b92933ccafb8ef61fbc9b9))
  ; ((false, 82%nat), (0x3a9db3df9ed9400868a74f63cf18948e1a2bf4fedd19c3a14f3af0f7671c391f1e46c5453b54c293573bbcf29cf4e5da269906f78fd6839e, 0x8a01d3b25de60e7720f224687ce62f1aa76d52646daf7036cc39617ba5ca03dfc1d7abbe67b5483fc0705361ea06471c940fe0e709300b9c))
  ; ((true, 80%nat), (0x4fe72907307eaae2f5c098976af60f345b7aed17cff0e6bc0fa9c088f10603fad3b4cb3690e3f1f2fd2aa3d482e3746774926f7c7f2d9337, 0xecb8448b6af2bbc7c9841d4bae5209490bfe32542783e871b83d7aa7cd3a899a9b52c46dcfbc32b30ba0f19f1a7542469c5ae1cb6dfce22a))
  ; ((true, 77%nat), (0x3ed993e2ed39106a0dd82cd840ec910d73dd38d7c213ca00f959e6afa82d979848fafd9ef5eca4efb98a99ed3c521fc4734d066261fecbb7, 0x60488d18629f01fe1d12d2078d68b1a60abdd9965998e47291754ef73db8892c0b914c956d3b0224a7fb4e5556fa3bbf9a0384d079956ddb))
  ; ((true, 74%nat), (0xe2013dd011fae05002ec4f18f3fd8352e7972f9cfa124c443c7c0240f55c84ef53c22f36788572bceb042f4e2782edd40b0fe65630171cdb, 0xcb43871ff980c1147d7dc0ba31538f4b0cf57029a19d2b8f3d2962f9c02f2923a730953d23e394c61341d0bb8d907db3cbae0d5a9d59d0f4))
  ; ((false, 70%nat), (0x4e63fb6a1827610fc9f97209e383395d5a0cba3ed37398bd179e4873e6b1b41d48f95579b872204d87717297c98e9268cc6c408b6e2937a9, 0x390fa695d9ffb288ee82fde7c229ce43700ed0ea61fd9568c7e711262cd32b9b5fc11da2257e158af5f7572c57cf1dae6824dee8d4074c02))
  ; ((false, 67%nat), (0x60b6ae133eb8611d7dd0b6bc0d7c1b544faf8ef15a0b22c5eb7330f9c04a7731d03890d479d238d1f27d11f0e4acb8c6f71c6b53b79d9f41, 0x2c464c6ad74b8bb4c3a4498fa7ef5b611c20ecb8eb3aac13de865d0e965b2fbb30238b09f8e9b22c1727b24ab2d6aca3b02fcba4ddaaa23a))
  ; ((false, 64%nat), (0x78b60079f35d061c4fca52b37d5ff192c4f9e35490e1f43d2aaca79f3b66369477f018da0b9483baa35daa11314aeb849f755e8e581652fd, 0xf69a3fc37db6d2f3fcd7d7f5ec7d02b0ae0be7a653e71737f27066018e1a456728f0711325a5d6c8c38b120db0d7b0b8b3630a615793f66c))
  ; ((true, 62%nat), (0x80daa81fd113672a9e8090a78148e92c248d1f70a7ab67c040cca60ac57dcad172ea185908dc682e8c446d30e4cacc0c198ceeef86057a1d, 0xc278c54db2bf92d488296e558b861f26fa21a7f07a9e37582f7b21b39730cb7f5c103b940d8576117be2a66ecf7c15242910aff4cf636c93))
  ; ((true, 60%nat), (0xfd20c3a6fcdf5905e4beff97e2ca47d6dd248b1ad9dff2c67ed645f2584fb468deae660a12f4eea2030ad1aa27e495575266f02e55e99e9c, 0x1b171f36194df9e8c822b5b73c4f6011f842a51c52c222ba7f7fc1d432637a797b96bcfcfbe77e43c14eb902bf517ea595b1f99abf27191d))
  ; ((true, 58%nat), (0x4ea274f96459783ddaf863c47078b43572f850da70a24260087f5fc8184cbeab3cd31c3879146f5b431be003d4476cd44b0b51bea02f617b, 0xcd3b97dfd5c55586c9d3f997134861c69ef08756f10e426dd8f85c234cf1358ceab1ba324dba58169d03f2a34d0263b15ac554826f9b2f7))
  ; ((true, 52%nat), (0x2f6229999708459bee83ac6c823a6bd728a83ff26a5e389f4ff751fb0fa464cecb3ae3ce622c76370f8ff3e0b3947ab5529a9e7b0b3370e1, 0x477da622c21775be1faba3d722d21c40406593ca202b4d90ad258f8909271a0a480968217132d6874ae9aa090f3ff73e6680e174bd448fd6))
  ; ((true, 48%nat), (0x5d831896860de9543bb43cbadd46ac99a846a01fc889e74a058459ee71d62c0c2dd7a60480fc25882695fa8b159745cf5d491d406a1a85dd, 0x4d76ab1ee098d8d59bd8b2c2f1e02addd27483807b05561ba90477d788ac6a255973a8c4b854918ec6055f88265705a394f376d0dbe35e59))
  ; ((true, 46%nat), (0x4437a0b826add5512dbd8c218835f64289e9ae719153fd457e63fa92f62e6dd14b57fd103f5d460f6dc6341b295510b52f5bd6a356a92ebd, 0x1d6bae69134038b9e99b098ed83b4d5b3b4d282f7bb1c2cffe29a5a02cbe4574061be194848ba45426aa5b3fd839deb875dc0956afe6b0f0))
  ; ((true, 44%nat), (0x7821f5ef3e75693074dc17bffde2bf0de351780a575795cad26a934bdda2d7d83f6862bab6f3a97ef64a624f87e4be8af708a040f9f76521, 0x645707380acbe16075df3bc6169f3da3c75530a6790e6fa51710d7345d2e809aad0c51fdd60677be2985a8dd24dca3bee3f2f28a92b281d0))
  ; ((true, 41%nat), (0x50a844804be87274824db5bb91167783e0fb3d587827af61596e9b68c952371499851da36dfd5cd6c36be42b212de168743fa956c422cf59, 0xd525c6e454467f55f550f31f909f2ad1ec1ff6021a9d436f6dd9196205767c381fe39e1d824adf76a540af106da70b7a00295308586a0ba5))
  ; ((true, 39%nat), (0xd394ea7f820c85c9630bacd8bef6c76c3113a638f1ce89d1703b3f0fde62f0805ff68f300058dd8fc6793c121c525c82ff85e504dbb23258, 0x7157118db36ca9a578cf05ef0424b680fd26612d3c8e319cc825664af5170484e6161fe46f9d2e0cfe83780eefa590d22a5df4cdeccefd80))
  ; ((true, 35%nat), (0x16c45f1a2059f50ce09d0f9468bf7a956f8f170c95cf0c31dd60d4a489e460a4a2058b79e8088caf47bfb867f8b34913f33b64f0549d0dd3, 0x1be2a8985af67a47f2f76128241d1163ab2a82a519a8de777d75a5e31293c4ed7417ac830402d998482733906c004613a38316260b451fbe))
  ; ((false, 32%nat), (0x47217d9af748cc5db6a6e1b384323dbcf6df6136e868bc39c18fe53ed1713fd8a442b3f53ee03d9590700438d1f1aef72c519f8fae7465af, 0x5eeaf18d41851558cb5dd5f8385b7ba7b4e49047564cd63cdcb85f9eb9d2e364c3969cc4a9ba30919c1824cbc6a8f266e6814861eef3c1b2))
  ; ((true, 28%nat), (0x3db1b9350d704e7657726fbccdd83d3fb5c3a7daea7605c80f4925f5dd42c8a3f3722cc6eef8fac66779304b739d694bffbe741157b25b3e, 0xf88a8abe69fc4b646cb5a24acbc7b202574598b03a3e1a354c2c105024021c3c8391c6c72ec6ddea65362b60af375e097d45f6cf6544fa16))
  ; ((false, 26%nat), (0xa2eae266e031469ab8c6860cdef0c3f6c7ed9a5e727204f6fa7eefb3755836230ef95a4ced8adcc6df550f602bed79aee3a01924bdad3d4c, 0x4450ac6ca8f891a9ae4c09ceab8f2ea934468417ecbf605daf7b583b19ced9ea4d9ca64377898cd95c1c6fc1247a4ed7be17c5a5482fe770))
  ; ((true, 22%nat), (0x8e6b1e69d4fad4d057cedb7782816386788b1378943904727152cefb9708c19fb41fc19796a4719e544db5c66939d61f274b5fb5ba9b0fcf, 0x5685a9b4ff6a108faeed847cc8dd7062f7f65066885f1836caa07d59d7f7581d334d4cb0b09c59c8f5209e21bc9cfbf5ca586354f69b9a40))
  ; ((false, 19%nat), (0xa7d966d31569367f476a958d90a42687f5484e8780f74f5a01ff342b173447aa268779c507a559d4cecff268d20d942c151d36bfc3dfef45, 0xfbea9a47badca99470e5528f7fa7b0a09cccf0c1b3e3b6a0a0eace3b6aa65bee420e7eb12d3dc52835bb9bcb6dce4286ef54dec4c5ba6250))
  ; ((false, 16%nat), (0x859738d8ba771dc0eb98618ce17d8b54d65b5b6f314b078656f8db75f0a8dfcc50073864a4b491a5467fd3e9f6e938944e73c945a0aceca5, 0x983281f88f77af892e3bdc1a681568c2dd52c1a37e90573ec047704e054e63cf0ea17c382328cce4034c6b5f36ab33205377b4931c2f07c4))
  ; ((true, 11%nat), (0xad2896b997da6a11489c7160fb48c84f2bd48b13f7eb4f4a7b9b068d1636f43f1ea09dff29d4f5ddc58be033cf812aae8967420cf408a233, 0x395c5f2cefa7ab6e3911188b68c78160f706c152b3ad716cc3d80e27bb0751d25ef587b22a7d4196701e9f8663a7328b98d59eb3add1fda2))
  ; ((false, 9%nat), (0xa14eafcc5fe08c6ee08a96846c5bc6948a3841199b32b89d4c9c0347421bc9067679b3a0fea603319d2c3a4ba8e067892045b654ae64d349, 0xb5e290cf5e2532451c44e78716a9ee8d7882962d6fcdedbc16276fb4c5df69c07f53da46a6b027f213306d5815e86b115cc0135816450da8))
  ; ((false, 6%nat), (0x28d464a161496dd732f02601650c1c640ec8d4fb5b3f67585cdc482510c89f84ddad8af20a43924a721325ed2d9e2042d6f1228c521eb25f, 0x2865875473a0142f4a7b09b649fdf95be434b1e7caa4970dec78fc2ee326091c1be56047ac09704d5c130cba02057b4e16d90e076b23c7a9))
  ; ((true, 4%nat), (0xbe76bc662732aef791f2ac791531de2837502c21a2c65103c947a742a5fa78963217878c00fba0abb771c7a7a751b19b054e029e5a938e03, 0x62423af4545623caa3d492edb200d686813fc3b97559386e1e5898dc48626848824b233a1839baf8fc84c8bc49ad9b5df8749a0bd233ae79))
  ; ((false, 2%nat), (0xed39423500a5e53e4ea47f1bcd59c00b1c23828f7bdd437949e678814d149c448786356da23c8b9d8fef1979bc258c0573957479ea5c9a00, 0xbb79ccf9f9370de4fbcb8f5e10cffc0e841f503ce068c5bd5629a8ac6c48d1d7afc34bdba159177de2eb04b3daf8e7c7e77bba712df17e1d))
  ; ((false, 0%nat), (0x6d705d4c3546a3a7e2ac6aed91aaf5956af1c8cf21af2b64d9e66962cd32de10f0606a0a594f882c17289d80a97ec349b6bc12cf1ad8857f, 0x190f584842721554e5029bcc2ac46fdca2f7dbc64cf7e3415e45711bd445017fa90b693c6f7b547ea99ecb0104d8a97e90493a73aa3)) ].
Definition shake_point : zpt := (0x6d705d4c3546a3a7e2ac6aed91aaf5956af1c8cf21af2b64d9e66962cd32de10f0606a0a594f882c17289d80a97ec349b6bc12cf1ad8857f, 0x190f584842721554e5029bcc2ac46fdca2f7dbc64cf7e3415e45711bd445017fa90b693c6f7b547ea99ecb0104d8a97e90493a73aa3).
Lemma shake_seed_ok : length shake_seed = 57%nat /\ bytes shake_seed /\ enc_sign shake_seed = false.
Proof.
  split; [ reflexivity | ]. split; [ | reflexivity ]. unfold shake_seed. apply bytes_app. split; [ | apply Samples.bytes_repeat0 ].
  repeat (constructor; [ split; [ discriminate | reflexivity ] | ]); constructor.
Qed.
Lemma shake_scalar_ok : secret_scalar (shake256 shake_seed 114%nat) = shake_scalar.
Proof. vm_cast_no_check (eq_refl shake_scalar). Qed.
Lemma shake_walk_ok : walk_check 444 shake_hints = true.
Proof. vm_cast_no_check (eq_refl true). Qed.
Lemma shake_find_ok : zfind (shake_scalar mod q448) (walk_points 444 shake_hints) = Some shake_point.
Proof. vm_cast_no_check (eq_refl (Some shake_point)). Qed.
Lemma shake_public : emul shake_scalar ebase = zF shake_point.
Proof.
  assert (E : emul (shake_scalar mod q448) ebase = emul shake_scalar ebase) by (apply emul_mod; first [ exact ebase_on | exact order_ok | discriminate ]).
  rewrite <- E. symmetry. exact (zfind_ok ebase _ _ _ (walk_points_ok _ _ shake_walk_ok) shake_find_ok).
Qed.
Lemma shake_range : range_test (snd shake_point mod p448) = false.
Proof. vm_compute. reflexivity. Qed.
Lemma shake_undecodable : ~ decodable (eencode (emul (secret_scalar (shake256 shake_seed 114%nat)) ebase)).
Proof.
  rewrite shake_scalar_ok. intro D. apply decodable_eencode in D; [ | apply emul_on; exact ebase_on ]. destruct D as (D & _). rewrite shake_public in D.
  unfold zF in D. cbn [snd] in D. rewrite fval_mkF, shake_range in D. discriminate D.
Qed.
Theorem shake_refused : let key := [168; 36; 218; 90; 0; 3; 0; 0] ++ repeat 0 49 in length key = 57%nat /\ bytes key /\ enc_sign key = false /\
  forall message, exists pub sig, ed448_derive_public shake256 key = Some pub /\ ed448_sign shake256 key message = Some sig /\
  rfc_valid shake256 pub sig message /\ ed448_verify shake256 pub sig message = Some (Err DecodePubkeyError).
Proof.
  destruct shake_seed_ok as (L & B & S). intro key. change key with shake_seed. split; [ exact L | ]. split; [ exact B | ]. split; [ exact S | ].
  intro message. destruct (refused_scalar shake256 shake256_xof shake_seed L B S shake_undecodable message) as (pub & sig & E1 & E2 & E3).
  exists pub, sig. split; [ exact E1 | ]. split; [ exact E2 | ]. split; [ | exact E3 ].
  exact (Interop.honest_valid shake256 shake256_xof shake_seed message pub sig L B E1 E2).
Qed.
Theorem shake_key_refused : let key := [168; 36; 218; 90; 0; 3; 0; 0] ++ repeat 0 49 in length key = 57%nat /\ bytes key /\ enc_sign key = false /\
  ed448_derive_public shake256 key = Some (rfc_public shake256 key) /\ eddsa_like_decode (rfc_public shake256 key) = Some (Err DecodeError).
Proof.
  destruct shake_seed_ok as (L & B & S). intro key. change key with shake_seed. split; [ exact L | ]. split; [ exact B | ]. split; [ exact S | ]. split.
  - rewrite derive_public_ok, S by (exact shake256_xof || assumption). reflexivity.
  - unfold rfc_public. apply refused_decode. exact shake_undecodable.
Qed.
