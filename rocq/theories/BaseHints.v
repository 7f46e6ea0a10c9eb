(* Certificates for BaseTables.v (data only, checked there): points of edwards448, found outside.
   They are not part of the model. *)
From Coq Require Import ZArith List.
From Verif Require Import FastF.
Import ListNotations.
Open Scope Z_scope.

(* 2 B, 4 B, ..., 2^446 B *)
Definition dbl_hints : list zpt :=
  [ (0xaaaaaaaaaaaaaaaaaaaaaaaaaaaaaaaaaaaaaaaaaaaaaaaaaaaaaaa955555555555555555555555555555555555555555555555555555555, 0xae05e9634ad7048db359d6205086c2b0036ed7a035884dd7b7e36d728ad8c4b80d6565833a2a3098bbbcb2bed1cda06bdaeafbcdea9386ed)
  ; (0x49dcbc5c6c0cce2c1419a17226f929ea255a09cf4e0891c693fda4be70c74cc301b7bdf1515dd8ba21aee1798949e120e2ce42ac48ba7f30, 0xd49077e4accde527164b33a5de021b979cb7c02f0457d845c90dc3227b8a5bc1c0d8f97ea1ca9472b5d444285d0d4f5b32e236f86de51839)
  ; (0xd1f1bc5520e8a35b63fb45d0e66bd97b037c08e2d7bc285685dc8b976c4cb47d816a64f9080dc1ad713e223aca9406b6962538a67153bde0, 0xc7564f4e9bea9bdae87d1f3574ff46ba408c6b38b3a4b93b7bd94c7b4b98ead386ad8208f7003ba8d89f1663164bc8ee454eb873ce69e09b)
  ; (0xdd8402f36c2e9f966e9290104c4f302de8a918066e09d5dd6f5b419ec49f9eeafd74c278d5b37ed68c9c6300b41a07768fedb5fbc9120262, 0x1ab2b2d015957671740ab813879afefaf0a16acd03fb9c2b9a0193724ab9942646bc0936d4edc83158ef53c0ed47ca820ccde6ec861d7985)
  ; (0x745d3d448b2289b6717909b541986de74408125612abf7fb9b0e0743dcb5b3030d90c8f560809dc43c3d28766d1716c675c5b004f069d31a, 0x59dd6be767914ab19625d85956b7099dbc0b0d92d2ebbf37d2132166c5c51fef4393307152d429277a90e8b549b5ad178834c327b3aa95c8)
  ; (0x85fbbad055a0457a3e5884b58377808898aa02afc449737091ec9b0eb17e3d0469ba838706fa953951de6a780c4e2a8046efbf62284547e3, 0xe0798f7e9cfb8e375db0b59523eb593113642c39d705a26eb0986d0a369058473c2eb9abd062bc17c46a700e83a07be4948f5ef5f3b0fae5)
  ; (0x3dc761ab3e2e73539e8ff74bbbbbc555130b781ffe9d99a794b6b488143bf39b6767f027d65bcf27f1f1f0670a41c2bd1e38405c6694c224, 0xd103a1a16b867ae9e5f0676c4a46139876a39ac477717221ebca8dcff557e2db52597f5f4f2ff47e61f2aaa85062aec762fb7de7e76f8509)
  ; (0xf19c34feb56730e3e2be761ac0a2a2b24853b281dda019fc35a5ab58e3696beb39609ae756b0d20fb7ccf0d79aaf5f3bca2e4fdb25bfac1c, 0x3beb69cc9111bffcaddc61d363ce6fe5dd44da4aadce78f52e92e985d5442344ced72c4611ed0daac9f4f5661eab73d7a12d25ce8a30241e)
  ; (0x17a1cd1d6482bb5472e8decf27547dd03c60ee897352c2ba43e147e0dd0b14721c7f34ad4939175c0575e032018b17bbe0d2e7660940ebc9, 0x38063f91b3b536be398c2bb2d89b907a50e39ddd0845c7a6872155e61c8959792ebbdc81ca99fff07df2f0cae34ea7dd25dd43b848128b3f)
  ; (0x8e119200109cecda116150980a930194a20fcebaa26e15563da32ae41d0693b3e40b8a98bc477dd6dfd1fbdd0d067de2066bd48bb555a41b, 0x73f6b4a06f6dc74296c2407929052f5b76ac77f23f47b86399b18edce009204ac690e0c050d2460ddf76eba50a4047e44b8ea0552ffb9726)
  ; (0xabb234f5508dd833e1bc1fa86b184a889fc3fb6645503f478d69505d5f4bfe0d25f5a3bc2f657647ebc77cf76c67ab38988d58fa302491e3, 0x858ce7feb964f5efd9d87cab14e349b74f73433f59cd4062e560a0b85ec6d3ca3a3e9d21f4d38ec8a2d357ac5f164dc8585348e1b9a05b48)
  ; (0xb4947755ecd410a29a9898fba27a316189c6edf1df0923a323261078959f6daa0d6ebb614b0f9150d349e3c1fcadaf972892392f8f68a812, 0xb424e88f02c0375438a0d583fcc7f4fa0916e2caa4b8c9a591fc33884d66848730613e6b43546b54c0d33e6f34b6159ae49628179d3ed1f5)
  ; (0xaf74352da4cca962598cf726589a60bed72b09ad2ceac47dae29b47fe2ed2eafd3004e95692b9e210b45199c5958cb44e8d62df71481ee04, 0x7716f64141c8a59fd437afd6dca25c0a03d52539a17f98dcc5efe81cf49dcc0fa16806124af468f81aef5d5f8f1476bd26e17f8fa8643b14)
  ; (0x8dc92f3afd54b1d1bb67bf3cad95cbc1ac331ecdf45fe704ee986165f3785c44d8c7d5e1d052582df902fdbb50fbca04c7e08293d6c6128d, 0x3aaf599986a799ca758b40eed66a9c2cc9fb65592c0e724b79b82fefe67ce092311cab597730b26fd68bdac2948eab351dc98e90cedc2e77)
  ; (0x5e72878ebda40c3e447dcac8c3206ae2b9e4e90e8915e7df981f50cce370deb6ffe77ccede0d4bc14609f2f0de394b207c35369399d0d109, 0x9d01a672164a50bca0f38be0ed43030f497b650b4d6ba7b289390550e6ef7d02c6ee66dd27641cc170a727001f33732ad655bb531434f02b)
  ; (0xcca6185ac75169cfc80cb31b24a2063186c707b83e57b82812e618d840619fe2e65e67749b145c8217159fff1fb4e2397e7577254eb731b4, 0x1bd872c4b26ac2214763aa0e9b0a8a063187b35cc005664c0e4f7d9d85469e1b1a9c9e841a30917c74825895da00368bce6539f44b255818)
  ; (0xa7d1f60843faf615542f1660e4219fc97c799d7baf823475d8a66588a7d1e41ff20544ddcca4022cb565434f69a72d52bc3578f97a93762b, 0x85af86e2d28e0a6ed4a1ba83c991f047c21ccd8951dce6ed6f89956b0e419c2ae87e59ffd5f1c5bddbfe3ad9bada49855abbfaab54063ccc)
  ; (0x87623d64bd960f23a971396d1d0bd78b0bd6b5f6da078a66a5abc626230d7d13760711acf94f42cf7f66d478e4318d134051da71724d8295, 0x564bac7ff5ddf709d36f9b1744a6ad65e2bec8096e896d2fe34811a9d1e2ec1116f4e72f62c2e1f95df123c1a53f4d03ee0841a9977db53f)
  ; (0xac914f9eb27020e4d187b3a4a220dbceffa52126c96e55650dfb1f03388c5fedf05bf19de39cb77057d2dd6cad545da557676b366eeec506, 0xd9e3134ec4584d661072b549b9e33ddfe6dc116c816adcd7a18fcf5936b4b90f2aa2ce64af6950d809816ae97dadd944513f4ab98d2e5f30)
  ; (0xf085eab0a7ead637792cc02fcb8eb6961ff018061ac715fdedd838d7203e4b3d28602d6e7e49bebeccff275a2ae0c11893542608b1b45183, 0xb1bb489fa1383edaba2d6fa886e7501ec76ec2fdcd64e193c84c7ceec05941ed3ea41853a84a4eba7f698d1b7954d8cbb7ce6a25c52d4471)
  ; (0x8dfba353b19d0a42208ff85e8e9ee236cd5bfe7b8be0c9f09a7fd98ffc54c92f46b882d24c71e38fa05d959a4cd145fa2db600f1bff72745, 0xabddf2b342a4c99febd322aea889b7c613fd161368ce5902fdc6e5b06827b42fdc96aeb93da14d7474e8b11107c0c8dcce52e422dcb12629)
  ; (0x7dc14c0042a17c2f748ed5563b575a8e9f5fba4eeebbc295a0c30af9296bfc91a0ba21273d1fd380949494cf785268d52c71781159d0c5f3, 0x20a3dc46d7e6b55af9f33e764cf5b9f532d7af0a076402e7e571f3a3ed237672fc9ec79f2c2d916c9c17c1b69f29a8b1e68e591625b6a8e6)
  ; (0xc4552ea057fe47802cc43312b64e584b426046c1eaa22da4fc220d5c113688fbb4323ce07b7a1ec64ca2ba584385652c5ee359de5743dbcd, 0x7746da9d3efb8d977dea223c8c9a29e63baf22ac7289d683caff2bb5050705abe9aa07a35f499071468ad3b146ee9924b99a26570e3676c1)
  ; (0xe646d092b7822b948b4ed7f9143c958349f2cb4cc767e8b58ef4dac3500553f1b3e4f5fa512513a07724cdc990b551e8066e46707a1e400c, 0x85d2998af6751ba10b18d169ea9bdaec5c9f4631a15846f61f445b3d72f2de756142b0516d4ba5a788b734ba16ec837fc9d185dd52bc3c26)
  ; (0x271166a5f84fc0e801cf595ee6268a461486c253fb5e2a927737ac215781880571f8959c3a7173cba6000966e171860911da0cac443ddf31, 0xdb6ecb0355ae15da608449e51b8862ba530fbd31ff5078abfc0d5c98a8e4a1c660fc6470393b2ffb598080cb179be80a43306937fba856bd)
  ; (0x8bf607b29568170178408eb8da485c059d34c6eb6a03376d8cf728c094f9ea4adb6c1404c72a1b0a675b33ebf4ca49bdfb2f98059c7bb2ed, 0x80c2638c7dc2af52a08bafd4d363a610314b2e0d286b97103a26617d15d7cca9154ba9bc68739c1e46b2d07a40337ae6537ad2822ceb3d28)
  ; (0xfbf34235d9a39261789844676454ad6c5d4c738fd7c7ae54178b8417d3a3d5b3b078cad06e090036f138744f65242ea095e4b8f31770d2ba, 0x280bf1d1d76008ed0f979dfe8f1ceb462a2406421efd2d796700c8ad4f47558f3f4606f75cc1930d59f8605bb75ffbead8e451a7fff772f)
  ; (0xb45b11c949098ecefe823c485452fae33645bb2887dba5f3537d7d2f9be1640192b6a749403116e41fe5777479497fa4cf027685793af5f, 0x3be85bcb055e8222e8e24fc9ffd2197537cd0080315e662fab8967523a2973a59f2838b2a81eda746ad2c9f96fd58ffa062abaaf407572ea)
  ; (0x7fe905955baca099ebe8bf24667e98ca887b328d6db809636643d12593b17d62faa9fadc7bce903b864f255bb13b9df992aa1447587ebdc7, 0xe220c1ea2f33ec7a9d26fc0c0e7858952a467818ab64855c35c5d575efe1b379196032fe4c00ff8378a63cc01fa13b79e74ecfabcc33f594)
  ; (0x91553794e0948206948fd57b76abd10d29933ad496a4755578fc8f5d5b83f952e5b02a6885317f7232b6c783674ab8d320316484d8cd9d07, 0xc23c047519f523e460570919b1af1f7f93ee6aea3dd21f48d84bcafd986208aab60565aa0c206a138289b017b03b18581e48d2a4ef103cdb)
  ; (0xd432d8b53f96395c0c7acc3430f95747ce93edae87b14e3fa1a96d19e6faa424e65020aac4f5f56dff13e75dfe9bfeac438bde4dfbf01660, 0x8d014bd6e70b25b535bdde27bb2fffa5562be46db2747eaff4b4626dd65d8a959a70e990e3eebbe92512b7e4558db792c9cc02ad74cf658a)
  ; (0xd3b60b7744fd85bd49448ae67960e7419af2593f11800c973da042cf27c017a4d976b67d0e4f04c9bedd1127fcb86a39c0761c219dd9a54d, 0xa908324f780aaf94083d02124b52e3d068555011bed6b7184583b407b0534618bf319634407e05e62df77383ef339af6275e74ed961676fe)
  ; (0x6fd29bf6d0b69ecd732be703e8d61e977d210597c906efb79da0cc01c3fcd57994935807724f58cf73e4b66ad9f70fa725b27af1a73ec9c3, 0x4d8c69b4e3871e8cda0fbe902a5f6881ced97338719f1b9b03809a1159f3be8075cf1cc9698585355837ca0036ac7872b3ca658ac667128e)
  ; (0x22878be876d0e454d6e816c0b3445397631a28aa93a8491b7c90b80a3be77c89ee81275c02824f3fc35d47ab39c6c2131f0a8498945d5a19, 0x70c2e8d45338876e356f4d86e4356d574f17504b209532d7dda3c73698465d74bb9147a7798689a00f85340f29554577a3eecb8a46db3bf6)
  ; (0x69c99698bd56bff2c4aa285178a4310b6d5f992a3cb43fb8faf175a3ac1caededf584facabb14887d663e0b144b0536ebe51857164010f4e, 0xdf008eafed447cdb14eb3b07c1ea97265a71f96910670b4331f45c81a5ce5d7568a34a7bf7d18d8915813d5bb2e958380373d6372a4d972e)
  ; (0x344319a9e77578fd9c70fe0bf571c5c9b23b00b13238c85c0ca54884725a29bb24c36ffc7a6a7f52d3b814e829549938ba962bc81facb83c, 0x30a9342932358b276466f67a9bb1aa9331a7e3f7a9024bd083e515f9128cf812f7c11108256abbb9f4bb5f73b7abbf9bb390375a9589064)
  ; (0xd53cccd83f474e4bfe71091e624cf3f2d21e838d18dabf652050427b0bce9087dbbdb36a7660b92f208ff3235e4d8299ca2930ae53de12ad, 0xf33a2d857405abb83a71b9757a0f26b06829a3c31c909b570d65568f1e86d7754a656f9ca41408a52704424b28231cb38a37476e266fc4d2)
  ; (0xde959d59a6c9c9f2921b5ea3aeba381f22eddc2251620e6a1b021373c13c444f597390a25c9166f4f6fe78d703411041c42ec733795d4e3f, 0x5eef1eae4c0198ac6c4c593b8811a7050897d2cb6fc676c3706666465859039efa410b9f8fb06de04698642d9d1157ac1a79b5526417b8d6)
  ; (0xf3e5c7dbe965554ec9312643d53903848a7a18f30b7acd85aa3529fb418139efd6e6d5d4cd483914eac4e9231f5464e130c6fbdcf3e833f7, 0x648520d762372104755d979dffe6e08d46645a8207d9d8b6932c9ac4daa918f1a406c7cbfe9746c5c4259adfc7f6a23a5b8b830e1f15b995)
  ; (0xcc8f3f3527b007dffc2a15d8bc6b7c4b4e3ca08ec92ced1a60f34624f2f017ef46a14074e560e8efdd7db320b4fd3502850379f5a00c2f10, 0x9f3365488f17ad2ae3a3d37803705f70bc916ab1e4cb8e219c228e18d7ed333677c136a8457d2bfa6dce8d48d2cd03144c59f8ac4861fe83)
  ; (0xc44e8d290911c1ee7edaaf59818b6f543c418dbe710ecd5593cb3646a43c4b98df5df32e85553b0ef946c668a78ab9cfd3eab0710960e4bb, 0xca07dbe9bdbab54b9e8c76e3eccac9c465a83b9fc237a57e95ea134e1e0aeace1cc58b5b2ef02ccfa6649e2737c52afe2cafb38b1269b509)
  ; (0xfb5918a6090604580b6f0a50e9defee630312500c77dddc67f3a04ba405fe6c2cc39c8458d76c6dc9a01628df94fe5532a19d9d236869267, 0xd226bdd84346aaa569e853562af1e2d7d93a8a1557758fa38af7db8094643dc14bfb6494398c185858c483d62d61c7d1ecd7159253af6b2d)
  ; (0x51c7c9e518f68fe1f5c165a57002022c0d4da1660ca0c7c180a7e4aadd9d2da9f21e5bd43421447ca36478b7f8994553706beb0c7b2889b4, 0x6ec793d97d6e596bf74a6dc19080b75a2540ee08e47ec56c364b18047bd4fbd764997f578b4e0caa5e16a0f2cb3183ec1b6d521b62586502)
  ; (0xe14cc436fe6bcb2e60c928fe388cd14435c94b4a00f278ca638247345c6a8c4390b2865413509eddf83d8fd1f61614d77b07f47ebdcadfa4, 0xae1d4e0e974a636d66aac9288ea83f7417c6d6ae33b843e5af4ebf8754d90a0236c6ffdfc367ee1191f05935574f228f1a96526cf3de33dc)
  ; (0x421222e423acac5c50c78ed03752c6b968c6b7f00080608857ae63d62ce5a79d3ff0a3a4828e45b504f47041a64dc6b7053263956606f684, 0xc79c3d3786934c83ea9ec33976ba5f6e422ee9ea48af82fc358c92d0bd2c3dbda67283469d232f2bf24ad9ed5fd580ac27be83de5b3d56a2)
  ; (0x30c55415a76b6e33e87a35f3b10db261e8b938458d3635b27269ddbe78a15ef7f3f6d08edaa73228ce5a181fba9386578760faccdc8183a2, 0x551e339ad0d5b9213c224637ec99128cb2499722963a53469cca24355fa86290b4e905ac19b575dbad3320175ea9d119c494a3a866d417b9)
  ; (0x89daf268c940c22690ba429ae2b3a92917f357ae53254e3cf44e0dc289d21c2fd3f79113168a85f66994cfc610389c250df3c6f0b01ce80e, 0x4d81734f6305b8687d6d5e1158fc37e33a23bfbac91f034c72a945c19df1ee8505fb69701504be3e1795c6d684856059fcdc4d2087dcd5fc)
  ; (0xe6cdadf6151dcf6a45e350af01e2852d9ea7e1cf78c9450829ba971ad85651e9ebdc8cf8b6d108c7bb9c512b2cd9b9c80116789d60a4beb9, 0x42f0b588ab63c5f1e89295f3de1c227a6b23369093a5603a16c18b180dbae4bd8c61038e1e686454d60859e0c493d54cd2c454bb42b8c01b)
  ; (0x21d56dfc786e483be47d6ad4387550ed53507763829aeb83526d73b8d6e53652f3d65440ba933f6f5b54ee8093f44719f0f1974cc5b596d8, 0xb36ab2214e6f62fd141199efefa86e8f91cae3b68a8d9ea06cef71bf7df6d44c1ecd27c02a4d2e772e79eba84cf265a788a75e18b73bb39)
  ; (0xc4f6f73224a7f3474572df3ea2fb17ce69a4744abb1eaa0bf0752209df636e71bf4205d9d53dcd860615326b15f39cd0e8eb99f626c7bed5, 0x34e829d7474e833eccd36ba6da906687aaf13e9172a15d1fa802a15f5b4d2b1e0386997563831b301b2ecd4cdc74a20afb7ed86ad63081b4)
  ; (0x4d982f31d3b3cc44a414b3c91b00c9f93fbe4fce74b04c23f0427617f675645fbb126ace598e4ec6da174218d2832970c63a768ff2fef780, 0xd39f1e521a81e32a288f71e8434fcfe7bf8450b46883f7647166080e39cfb1723998446e9358e0bb589d5a21c07133e73db1d40e8b24cce0)
  ; (0x3c584be69599204e990947dfd73120384f48304b42d70b94476ed5a7a90e37298dd78a8396a435da021efe852a571ea89daa6984380a9383, 0x3c11c6322d50dc0f5ec533bd9586ddd2df99ca6c5df9d56a028646c5384e053a79422c83487192e04664eaadadf5f82474a75dc2b3858d80)
  ; (0x686836764411fff2e254b45737bd910d22c2f22b11e4590255c57d745954a418e799d2f7104f6b35527c2c17bd04ba4be27e19e7c15fcf16, 0x7e3eef300f84df3b9b44cfdbb6adba8f103fcb2fa85b28a9899d76613ca6dbd6702bb219e31f2a4d4ddf2c02cd5e7de4aa35f81c6addb6e)
  ; (0x260adc3a813eef3f06747d540a5c3fbca3cf73e03c1e9bb3a8e5639ffb5e217287ae4201ff4da0433cbf2f28cadd3088005e06c2113f8e2f, 0xb90d77473b3550abe22ffc26c3882c6b8c6ae7c217bd2c10f5af52d83ee3c0bdf5d9fe38d17a6ef32ad1545ae51c40a803545677643323df)
  ; (0xbad9ca1eec79afe3577c539a102ad7aa3a30271129f2095a1847849778b1dbcfce46c5845af2f1bda7392c32f83da4a4a670c1b6fa157eb5, 0x90fb9178ee635781e0a09599a216b6b5ff30849a84f0bbf1971a95927e8f02d7e6336c0d7af1789b6836012ff961911280b8a0072be7dac0)
  ; (0x16a8ce100af22f72adeed8ccd90ee28175fda1378eaf3e4f00fa2a677cbe937ef0039cae7742501aab440001fe294b74d978c6f13528af6f, 0xf41c870a3437f5a2f6918b78ff1589efb2d20008f501a4fd99056a794d75e418403682e92b3d5f827a1867861729e39e2669fae17cbf63dd)
  ; (0x7cf68d47dc691b22fcb5acfedf9d5f7fc8bfbc44ce563b5f0e875df2f620896013346e34a89f07eba833465a5eb3fb2691c840ae57be353c, 0xb9646422729791ec1305fd84bd52b910280721ca5ccd28a517b511d5a4c13feb100e637db2ad8ccf2132728a128fd87b7d37f7c2d76a103f)
  ; (0x1ddaa889657493afa12e614559ad4b8d09dc2cd510b3612f9775204efd3c18c9b8986800169ef81238741175425335709d66bf85b8b2ce15, 0x6242739e138f890052b3ab5b9bea5a5ab403d0c48d02a7210f8a4d92b16a6ec6dc8429e00835dbf90c94af4cf2f14d2e7187d700b1e77a08)
  ; (0x67f1665fa36b08b5240fd7b857e40360cdc11165e2a0bc9afbe91b07cd282e5bb8478a0228ad9a812ff52f52fe38cc88327f6def794945d6, 0xc539595303089fde81f094e4074dd2c9f264c5589e0265e58d1d07986b2d5b87e5f278ad2edbb489c8a394db722e8ff4c084ce588ad2c93f)
  ; (0x93131cc09c7a5ff17c3e8e023bff312743cd43caaee5d7e852d1b5d180e83cd494aad9ed138e388ec17bcfc61b091d7512c1c0358af3e156, 0x56054ef1ce5e42c4d5f1863932a4dcdadd9a51e7a5db44f0bebec7778e260c704f7ef535652dbef76658d37d41c50bbcaa672d9ae16675ce)
  ; (0xff693966be68ec951734538a7c4c8b973fc6a85a8472737c83cf9c6be06650a126adeda2d816ac12de951347c6be8d38024476f8790835da, 0xc4f8258acaf7ccaab213a13a087268495f6122f407a6c04e3f3d8d562310801449a92c3d83ef8efb683b486a6b56c6c15728c0349e2faf46)
  ; (0x46219cfff9cccac64181d8202774a7593b130e5b6e47be5130da34135842bce3652f713b0d11e1151a5cd00cb73d0520d43380bb29f1b263, 0x3ba8f8a907dac675aa0955369fcc48279223a1b3f2c40cdc9e4bdcddf09d151dd63e5587fb56de9e5a161de8d858417b9a2c74317b320919)
  ; (0xe0f8e3f99b7bd7068ceae53134f802561d8f419a439f9c20e7dbaa8ee458c57c26672c5574703af1cf488882ce63d3c4ef0a68e0a0ac5a16, 0x4f188e8b7b1d6cfa71f5f5c304c6a4273cbedffacdde402ce95c96cc175a9373f2875171a95632e9edafa68de1c80d0a449f7638f66c164)
  ; (0x7917be0a446cadc94bc47d6781589f03f45d0543b37e1e242cbbb14babd5a5be1cd15e1ac96c3efec20b4d58203b5e6c12183492f83e882c, 0x55189faea076ba996689de5c3b6eafb093d5bc12709d5336e30ab146ac86bc580fcb493a857bcfba3da30cb0a6c064cc7653f2be29b37394)
  ; (0x11255b50acd18595273297b8e93ae09d98961a299af52fdc57ed0526c46f08e1de077b75bef1729b6b07a155f8130e610099ef986646ce03, 0xc366478382a001f0f7883c17a6a9921f680c164d872ab96ec82bbdc2e82f40cc3d92605b0bd01283f7b3708a5784451d7457919db4a6acdd)
  ; (0xd3968d34832ba566fc33e664e55ac625451257ac7d7ec3de1e95fed2dc8f3b27388574f7ac290a35f141b3dd5a2f8010c1f68f15fac38939, 0xc066cf904d9211e66d111372f916835ee9bd465f70cf566ec8e9f733fcc395c85ca63bbca7df4827a360fcb212524da4a5980291bc026448)
  ; (0xff9fafbb750b1cc7bcc70edb7ab6cb659241d6d3cca012275624e62cfe3e940ef7bddc1d111905d4e8b113bf2b8593bef442009a6264ad0c, 0xc4c5dcb9f0da13d64514247b3fff47bf3f4e803c437010b8c59c604ebee8cb2fb480d1a92a859301e82117c84a890b0e02f65df297fea84b)
  ; (0xa9a23458d1ce8be5e99da36ffc35d602bdc5c5a87efdac37e064c314cfb697d26cb2aa9fcb51008be20c0a8277f47102bc074e4197ede546, 0x7ee451b41a8d15df51fe7dafa69310abacd1197c8fb97eabf302a2b3936170d4ffb93467ca87111ecc126f3727b26e2c151fe98193767553)
  ; (0xaac2eadade4fbae70d75425c9048e2141051551d7da20b19547e434afb9d450080fc4cd414c5378fdcef0a215adb97595542b4f3131c4454, 0x5d912c6880ed721f25af5b532898db8b76718d928bc7c7d3b78b1e3aa86e2f78f1472de8aec8bce0dc0e2684d7ee4d422322c82e094eacda)
  ; (0xdcd1054a2e8a7edc708408c7c97b4b386107e3b95302db739207c4b3d9e18354072e524af1a5cef5b05200f317a9412a22988bbd0a9f4688, 0x8dbe0f5c019976726fb798091be05afdf15e7b6ee70a2731ce92350c070890c8fcad0478c90ee11a4be91a92fc5269f375ed2a0f47745580)
  ; (0x4a5973b5f1e79108b4745f21fb5799bd5136204a04bcaee8d9d8eb60361df086a1887bd0b7f26d5ac30c6090062d1e033621801904876f1, 0xa895ccd91ce77e09f37e0b51bc1e7d30f600da62c67ff3a60a300eb59dd86abf1e1f62856ed28e25f76a222d0291c799bdcd8c394880c44d)
  ; (0xf7559c92a16fef4b133a038c55c5145ab57112b95a710b7385b825792ba5ae1d3ae15e25744393eafdcd31ca605206957a8af700cb5253b3, 0x1d9dc18014f0a3429dfd7dcfb8235e78a69a5f901e34b727579510bdddc9382fd2e706e084e473a41e40475dd32c33d07a70c3e68d9ba896)
  ; (0x1a815e19fc0c6c3a1a9d04aaa27f7e6985a8ad72852bca0736df2409fa51052143b4f521a3426cbb1dacd9ea4ffb7d7b34364fcdfaf403d7, 0xeb812bc93cb2690b7f847adaac4870f5071d05aa11e82da254ebb1ad343861728a5fb726a88592062d78a36dc0d33ced0bfab6147bb65bb3)
  ; (0x3ab793601ac0fdc32fa63ed55581f4545d97fbd8e4704b9928d06a1558fd0b5ad28c20b326229382f025f4f8f142d6d9dd080c0d7002f55a, 0x3050d16802f47494cfefc9095e616e73d90b29439ef9931eda84826e09fddaf60d739c8d28212ce26c45776dba89c7917813ece526099fd1)
  ; (0x4c733e0afae0eab6ea78cfc253a531086002796e33425af6ac29a15e9baf962671f86ae325334c6a159377751dc0047b8ad24ae1d77e9709, 0x8552089f6e36b4022c937ddce3d9b3e4df9eed7da0a66e38c169e1a0a56a3efd55533ad1bb51552680bac14e9e450203a64b7443a97c99b9)
  ; (0x9f98bf3e5d932fb5cba335fedda7ee3b44650a232c79414d59352a919e5b8f6e4c626efdebd84eb25732bf47b00e29f28bdda5651483f233, 0x67a9741019c9e4b8a885212e8a2f5e1e0865c38141e696fb4bd267ea55bd7062afbe74d0296542bccab913f1ebe99523464b7677e64b1919)
  ; (0x2b0b7ef7fa010d8f9b4732ab2cbc8a5b7d4ecca6acc3f1c5541cd70077fbc1e490d0c0bcf1a041620d2933eb62ddf19cd3eab8bb0eeaf0a4, 0x929863c5671c2f965d23363de6e069b57da6eb184a449e0a5aa8d7fb70e8613d58a63d27d868de44019c04c9c19cd5ee81b75adb7640778f)
  ; (0x303f8869f1c0dbbf349dec3537d17fe8c4530a690e8830704e28ba1c86c92c1d5b2ac822df238dfb6ca5a2e81db119d799105130fcfb7ba2, 0x74821b0aa368ec1d11e96cf11c59bc3d6d63635613227583d41d6c5262f9b9b3f835b27bbb1150c78d632b3b0e1e6423656b7e4ad759bfd1)
  ; (0x740e230765be619c3542133d29a830e37abea84f77f4c25d00f624a81060a44c790823452d67d9316eaa4f5505f4b2effd99c2dcc17e9e01, 0xacf60852c91786ef7fa80226258cc1f149f07c6f4901d491fe01d58b7095f6d898a8adfa5c538a86fa7ba66f33453b62a89c2b98ee4a9908)
  ; (0xe713fce7bfb9e9e98cf47767b41c1710dbf72d7992c1f73797b43b8442c906559b06d4f2e5b2cc9045e12ad80c3c3ed6c98e4bf95f5cc82e, 0x598236632b67ad59824108ff505304eacc0d27777b31539c70f96ffe5519810bfeb360dc282b793113343002fd8de40d0e9f54ae99fa5134)
  ; (0xdab8a768897da8eb7d900b6c9a5a5b1ecc5f02b89163518447dacf9e1880d8d5770ee16a69bd8394bb5982cfae0d509a336eb45546bea5c2, 0x29623ad0333870231c28f2aa4943df2986d2a15f3b513a22acd0d4f9b9bc911280bde03c2569c50849960101d4f4d73c3b28c7be598851a6)
  ; (0x672ccaf47283b7620563ff3be362fd3bac132c72bcf14181e0c862ebf2759270d97c57f19c9ece3493b80c6a3e108385697230b334bdced3, 0x89c259644982cbb60de528c665b73872abb0aed72a3db7dfb221b2ce14d8836af86ebed3dde553629d87f838633520dad7191e3fa2b7bf16)
  ; (0xbb1e64c32419283011aff7c2b43df5bacd776f6de6495df63f414160a6d67114f564d743ebdd8c2a24b5f77b2ff0a1a44eab088645f72700, 0x1da7e092653ceb96014f5d2abecd9eef48face43931d06281dc8f220d3a53e97dbcc2fed8eb2eb22e374891c62a68f1e97f70c5725034073)
  ; (0x8c4962d8d7bdf5102c8c2398e8b54867c7aa895ca46abdbe05346fdb56f01c531db70eb3fa6eea01c05fe8b4faa3e06ef2c5c06bc3a2f1d9, 0xd6511d9e200197dfa846079e4d5cccab1ac9ad5704c1a93667b67ba791a3ab6cdfb970d6ddce17259fe42edf2e78787a143ecf0fc958e360)
  ; (0xcc29d605593e5a009bc3527cee4c52f36daf49d028d613240ce1547d20be8b62c0133ee006e2b06260a54eafc35333761cd950e9db5fbcb0, 0xe3e6b6a569e761c959d7beba7ae4ce634bfcb0fd53fb3884f3656c210b54b59a4b82991d342ae4c14650f968bdaec9acde26c92baf696de3)
  ; (0x867bafb2dafea19f9d7f27ec27c7e55065358835c02a0b7bb343fbe3b3d9da31ff2656bbd5cb93455e1d7d356d853602fbfb7e9701af9c6b, 0xcaa39bcca82398a45c9d1b6178d9e42b06a0a41447fa14a53ad94ddac55e1f61182862754fe1a012e5465e039d236132db918f193dd26552)
  ; (0x8221ea24d065e57321d5927a5b58399b8dac3e3905e930f22be670c0c99a1982c09eab9fe2f22740883046cc969dd12d3acf171608fda05, 0x554d118d211f468dfbb30cb6ae801c02251d8ac5b7c6f92761e50e754f73578b67844f9d211718f3c342777c4834eedf4318e1d619536fdd)
  ; (0x1d77845f7b39b8a5352687b41aee2cbb6f7f4b1be8b7e35d6cb3f9ce6707fccd4e8bedea68f52958ad31586f3c6c7262a27593318d00bc94, 0x9f40b12a4cf347ad7c5f636d0e0cb4e66a17cc4d5b7a18039c25cec45e422f5c10e3bf62e5d1ba00c23c3250f70fe9e7d4b1f3995eaf9554)
  ; (0x392a69af2f64a4ea2a79fb63df0ef9c534db642aebd00e7af8a2dfcf4c7f900b51a2bd8f261a59785804c89bc40ab0a648697f88251e3696, 0x45901f73b9440a96c1de1ab4dffef7a49ae3d727c778a438254bca980a8078d62fbc34fe5ed815068391414bf2e6a5edb50c0f01cc331b6c)
  ; (0x47a9dede417037b55f43a6a03c6672f3c636c9e3b4f80440f78b414a61bb4311f640d383efe16f4e8d5781af92a925ebd6cfe551c56597dc, 0x764a1fe165a57506d48151c6530bb2ba0f2b969ff2c78d799f74af55ed5269853cf7cad50c86e6c04764895c3c7dbb92201a7e287dbb612b)
  ; (0xdfeab7b3af595265ee9ba4dcd47b3ac72da95213f5e360f82dc15e221251e3fb7bc1e18ac5e411bab7a3952a9b507e97245a784f7f28a78f, 0x29931d4b71ee44fa41c0f395c7a7c248b17faa935205eb6040e46922cfc5cf8ac98c8d003bd017dba2f6d977b08f3ac7ee34c5c8026fd3c6)
  ; (0x293f3bb8f00539c466343a9436656e0a5782f4cd5f9526f91dd05bf3d722324e0292e69f1c2ddfe4072245a77a2712ae73df93a0a62d140b, 0x4c1ea700dd855d15daeb375fb0d3be24659ae8870266bdc10b07e1a299c9bf5799bf017ffa69bf07f9a4cfca54e6bfded0b94b2857fe0d2f)
  ; (0x552ff3f821957bd1b68f1addabbc93815ec4a34886234e49a022d7a494eb351bafccb9bef63ceceb1f51301b65026af60782906e2304ca6b, 0xe8b368684e919aa0398d44b4c1389b6760837aa8b4659ddc24370f8b2a2d5ffa9c05e0c433f36fe206ad96d0983a2e3470ca5d9c5659514e)
  ; (0xd67266328e30d56c4f2173c0cc41ba326df7241d63f4308a7644a0076c14ea8d26a14d4f290172a54b5818158786ac119e6ca171b4a0a439, 0xb2d31100aab44b6ae9b01120f4b96ac447065ff3bf2596724c7f6faef1014a1b22442244916011f0374d5b4ad1ae7fb39a64f0b4b648a13d)
  ; (0xa16e282e22b6baa2552755491cae49c820e86f5e5792b762b22afe4d3257787658a13480e4ce6df0b3cef9a0d5501202e27eb82b08ad0188, 0x189962c560601335196c047415471d2abddea53f54cec2c879e937f1d750104603e8535bc4c733d812bfdb11efd60577e4ef99a9dea4ba9d)
  ; (0x1db9af7546b158211c386d3d4455089db70fc07f1242c8aaf9b441d1d32a378ff88a5b94c68ecf94518f3bd37db5ae8240ac087bb07861c5, 0x37cd38245e6668a1e5b6c69c4eccb983a99d4e042651b3b3c56ad643eebdace823aa13dc72cd42aeb58669c04930733df4dfd1b6551bc927)
  ; (0x9edfd98f5ee8765094d8db61da749a19e6b4867097a7de3ffacda62c2c44483946f090d4e424dc0b01836a774914ff475158ce6d9f73aea, 0x368463ebbbcadf9f88d12bf52cdb1244942e8abe7591189a000ad293c7248d6c782cb13d4d511247ca223b9d03969bf470e460fcfb37226d)
  ; (0x7abe7d174c6f0f0257dc8f4e447c7c34e1f020801aeb0b631a80e67cb1a20135fa9ccc483a510cd7dc90b0b40066a13abae566ff8a450e77, 0x1ec2cae80150f71fe126c2ee34f59f682532e0cef249f6c2f427d717855254b773edc3999bb6b351f99b8f0474a064ca0ef115a3ab19a576)
  ; (0xaf9b14255f7e8700c6edd8edd0616641fd20776daddf61ca887fc4e79220199f461e60f583ff454b556b5c1dee8e3bec7582ab83570a54ad, 0x967191c07d78d10d0ac85d47c212f6b42097fdb985ec1c4e36b10ada6c260d241be58bb24cc071b8ff86dd3b788f8bc1fa73f15e49bbe3ec)
  ; (0x3cf8d5d1d6ab314c0abdc254353555ef283c26686d61a4c9476d7c4f1f8c7a5d26e9b1796f7c6fd7a8acc8d1b6d5b0a761194d260c90ca66, 0x697aaa3ba416539eaa20111da4d05b3253f02abeeca0ca601169090c6fdbbd161a14360773655b7707c1239895467708a4b54716c8bf658e)
  ; (0xc7edb99e6a0a2c1aaab02ca9fd0e042a37e48dd7605b8fe9a6345d461da1d2b067d0d7dc13683216086eb802b6d5e60e1c3abd36c47c6a6d, 0x4792b128ba81263bf01f950c5b65b36d0a1cdd9358408bdd8221df1f648ba4d8a2b743a4ef53d6ad0931cdde1c7ab6ea91afddb6e6c205d2)
  ; (0x43392b37498acc5d6a149abc497bb5b4bbd4dd579e51a5d7ccc03026aeb6c826d570965baeedc256f9f55a68e20fb1546d9105297d4114f, 0xf6413ff918fd2da1b361a25831053ddbfcab0bc221b5a20fd9eb49702fab6af178802d79cd6aaf80183d1f44e4be78c8aaabd8ec152af552)
  ; (0xa784864b577ed887487db843396a6e8e73939ac98e113cedaf59d0b29a6a42284af4b192d450090436f37d00bb17d6a6461ac20d812dda89, 0x822ca84e698b9c1fa6842834e509d9f4fbc4239ec4b4cc8148cb82eda340ffbb37abd301145d4316230378960436afd2da50a3ede0f1b266)
  ; (0xc55dde45a24ff1b4ef894537da41e0e99d279e4ff77cd523504da7571949622add280c477236e863ba2a4b89297f27f10e3b11638843d0f3, 0x5ff56aa0b2e1693218ba2cc80903494d0ed605ee644587e614099f677cd476b4c0ac134af522dd3a54c88010b5d377783318d8e21b587521)
  ; (0xcf35ca4728043b1522690d04f49236c295f67038299b7e4695f5332d70f0968bf5b9b4156f113d44ee96a26d7be5e65c5251ec94e3a06c69, 0x52a4419643e68789ad33dc932fb551919e83e9b0a80a3018ba7643b074672b8fefff5cae596529c48b4953d2413f971b07f9ca3e1190a7c3)
  ; (0x6fa0c6986ee075178c882c51b967c7c07ab6c9b832ea5554405352869fed7fabe73fdc3308501ac9dd5d692419809c27b297a6ea05030a8c, 0xc4c495c9d04631dc15a38c93761cfd480b76a546dc971d7f6f08445dade85cd7ccbcb8cf8624b2800331f83c0ea3130c0abaa4a15b8b5c4a)
  ; (0xcceaec0893c8d4803dc8669fc61b0f953e7509ee3e3b046d6095935847ab9739b6d045bc7020bde3a04c78b6c2dd3a87bfaddeddc810a3da, 0xb1215541889cceb97d68e4788b0020f6b57ffd9e05e0ea26c7207f2d5d0f3f48403338e712c3590e360bb535073fcaea8a21f8c40b048a45)
  ; (0xa41dd1fcba25cd85dc62657607cf74f9629f37929b6b0419d74249448bc17874598702faac7c39298495ec765619d8e0db09ccea7b5e9de2, 0x21bfbe2073eff9f1a64609ebc8893c1bebd4e2e02cf2209c4c5ad11328716d05dc6f45179386d510c7c76a10d1b5fcb3d9772723bdbf700a)
  ; (0x238215bf60b4b4b28f840ef9ee76c0cf7e1a0c32e2ad4e3776318cd509c955062049b04677021fb671963420a57bdb36263026cd09ffc872, 0xb5521ea7964cc4066c2b92e10a8dd006eea9d13de6b110fededfa864b9e81a9cacce3f09141379d0d6a16c0ca43f5f1d09fdccdaf7bf526)
  ; (0x36d19ccf3c40de27ac697fa71e98e800102bb25eac8f1dbf2ca52ccfad0411282fbc625f2a86084565e6034071d1e30188707b7f219b66a3, 0xaf02ca2dbe9de0bc25d77281528baa534bc0eaefc981bd61e754075b599cc5c2cf700c3e61ea6a0b98ec424512258c8d34501a1f9605439b)
  ; (0x6835966599f813a0c732f6097a8e827b980222d4d4b0cb86b2c5f28eb2cac084aa18ee48167623e61efbef2028423fb2c0bc9fc7fcd0f38, 0x724e295595290da1fce4110fca7984607f12049638ba65d744c0bb329458038654b5776ab9b2fd5b3740a99fb7cfc63fd2aae41fcc497b9f)
  ; (0x70aaa01782fcbbbe1017fafca0dd83792a029631a3b61848d06944eb5e35dc55a131b11cc4c6ed9f01b521103020d381ca0079817464238e, 0xe8c313ff6a82074fe64900dd3dcaf922aa248a02bc2fca4922bf53e6186f0d3c99ae02b133e35885f2c1e9164ecc4486c1c63b7a099945e7)
  ; (0x1b7c22e69c45af82b4f2600ab17682021c438ec5b366dc926dedc333abaa0aeb2f4f3467e36bedf07c95a001922922a4b6c5b358397caf1e, 0x205aa54834372dadb80c7e67d079449ca1a20cf7c78b921e1da98f51b50c108e3505a966e1ce926ccd06e030936a407dde07b0dbe0924ad9)
  ; (0x260d932214273b9c19350ef85ecc937dd4716efe9ef81ebbbce8bbccdb1a849b4401ec4a6d652043dfe23031d07494b975a398788ce76258, 0xb2cb21ae25541c744376e323067449f176a8df9728183a0ae26d3b5171a60be8a0aeaa9da594194ced50199d689a544eb71d7e21e77bf1a3)
  ; (0x5195a2bcec1607ad628dc0153f3c19b3b2c75b0fc253f59a76ed60884c0f34b158578a979913e7b70ebabcf27adb6bba48dcb5bbd0f15878, 0xc9cfce463d765768c4c26dbe5709c991fc3694e3ed54b03b48ee4d6e4910a94b28c22925f9e314da1056935c6b0152920b95f8b84dfe0f7a)
  ; (0x2c4b3b6e66bfb77963bedf9c58afe1e05b98afc7c425de9259c3bfe1e9b72ed9b9e658e5e80a57822f47eb0e627d0645150275b37381cb89, 0xde971c6bcbc88cba8e2f62012949ab4be5bf57bade41a3a51f340f24847127ba282ca2f4c5ae283f27cd7368a5c6ba1f422e0853ccbaa00c)
  ; (0xf82303ae9d26723e18120fb39f70b4525c0a2f24321a0d959dc75f99f9c6d8be81c474cb4ce1e4d1515adca2c0b7977dfe03fae8d62ebe8a, 0xf5d37e70113814ed9341be3eb44eaa858dcfa1216450146b08844bbc2886d420b16a624525128c2795be558a756c95ba10f9bacdcdf786b7)
  ; (0x97e10cf185daa7169c251a58a32b214d217011dce5d13e14b3a06986dd642daf95c1468c4ee0ff8d58d7ea7c62e0e97bc53f416a8cdbbe84, 0x4530c6075a39e34220e508683c05b31bf738377c4da9de9767bcc59c2e960e0333838a69bf70ccdff13e1aa304b37d3bacc2ff0d6b96670f)
  ; (0xdad26aa593ad544909fb2d20274cb640fc38f51552a09b331bfd6252ca55087d36b7895cdcc6935031f84f2bce1b3ff8e2523958b3af063e, 0x6edb04103ad8599da78c3a65be47cf88a99a4a1939c64f2ec3db79bd168561521debf6e5f4a2e78aaee21faa3826457c7dbee5922c676b02)
  ; (0x211c3425f3415187362267f955984a4e356dcb561a14f9de52d3930f56ee808a2d7e35887781f6268fc27f105a2e85bfbd21c9227f52a44e, 0x124c9b1d1de9f4b69bed36f18e2302b30d7538676471ce668a6c60996036a72842dd0954412c9a5fe627cc9edf93d60ce28fcb75b0eaf9cb)
  ; (0x8ac295056d1f4768ba624fe8ecf9990f21617fea558009f5478084048ed55a574499169087cd1eddea0ce1e115eaff1049e8f8d95e69b531, 0x6b3b7e8f90409b67724a1f2a548c6b8c2591fde4986e368ca8fababab2915c531eb291abb1ac028672fac4a613f244c0803257887529dfb0)
  ; (0x20f696a3670c04184b9d36af75a8deee57424942457a286ab37fe4c89681e9b938b607a3ac88a42d8b8737afd33634c8d44c5e6157dd066c, 0x1ae042a991ba3c1b0ddd36311543d94e9fa2214463b440b273f116f249de18b142ee9b435ebd42c0e1ef03c19290850b2e1340adfa39e8b9)
  ; (0x9156a4a933fa3f4341e021af3f91b761e06e8a16e13601add1dff1f761df105ad701c815a50e3db6e3b4cce5f0e9ec87c62936ee47fd9dd6, 0x117b19587514227b46a1e0dbb23e39ed4a5e94ebf0a8bfb656599364ab2dbaf0a229d822b99f85a59a99605577a64eb9109dc46ae54bc01d)
  ; (0xeadc343a764523d90329d0690645581cc38e5f40c394afd052a914fd6f2b7c96468e6e751d057100fa0fabab01b3e3888bcab226070dfd5f, 0xf07ef82074987aae0566ba76f3d6b334bdcfcc2a70f4a595b821bd1873510ce0f171e071507601ac79c0a6a0c8be620c3a35cd846b0119e1)
  ; (0x1dad353abd6abede069bf49468df4224feb1331ade1d5c52d27a542616da1b7ce5931dfe6bfdacb4e6c39c58026f3dea9a2cd9a6d6c31058, 0x87dad783dd2c1b0b9eaaa7c4e7dc535a3dcfc8a7a988bc38bc466474698d3210c7373f6e3a449ce649dd36df29c76894772c637d92de1ce3)
  ; (0xf02318c1eb1474c6a1b24ad2daac77c63942d862618515cf78ae8e93af9c03c2048c273ef681b3c630d9980421c411799e0822abdee20bac, 0xcaf16b0b755003e77e80cc182ed9b717ae2ac6d6139d696fa54537ddb579d60dae809c525a179576ecf9fd3f7920a015926e50033ac06219)
  ; (0x52ab949c9f33b9b86f9f96d3e549c9a408453c3b044e8fded8aa88a0f0ce80e18632684f5251292db72f6c4697aa39460335814f03e2f4c, 0x3e66bf1c9cc6b4a8e2581e76a57157e727f9cc078a871e8757bce77c217c7411de8826ae0ca663d2cf23bf9e8c8c264005e6a0ce88ed7193)
  ; (0x23aca37b1a6893b9613119e0c2bd44a4a0037678072be83d03515a6fdc637c7866c1e315cbdd849590a9d77042387ef59d19e8fd423bddf, 0xe590ef4e7c0012e443d562817a2ad6aced03b6f29b9c6c70c0bfcefd754e11281ed681cd2f00a17a306644710898a8b5c7f5f368782282ea)
  ; (0x454bcb6ceac169fdf00451694a09102908600e76440bdde4674cc658dc36e2756b6e753515fd2dd5f512661816eb2daa26c2f96763e62e2a, 0x7418c7eea2e35b41e8a20aec0320628cb7f125ec4adac7aacd7dcf980d45deef53a3aee6f42316362d6d8b77afa09750e7f4c92ab6481eb6)
  ; (0xbf9d2f0fb90dcf6c66727b0187aa3caeb50c6bbc10e1729c98bb0b31ba62a03b76a2e8d4c7428b7bc6db211381bbb607eee44c65b219379e, 0xd25a8f61d681c6d0f46356e473e1baa9a9a8a8b06cbe44ba9adb157fe1e39bb251c017b366d8da316b07d58d2a32698eb5ec693501184dc6)
  ; (0x5cad8744465c348d59eb77236f394722a55af532b0aca479bfda63bac10d0930de9e6f51f72c49ba0648711216f5c7cd074b22c3b562a5ed, 0xa215da3159b5412fc802727e2ba34e474d56378cb65f5de0d52c0a1dcfec5bc0381fba6910f02c19f387b670264f343ea4a2119e5722b0c1)
  ; (0x8064be6d2381ac0f5fa7bfc08b086e169d806184204fb3b66eb34087c2c6c38bbc18dbca907d4098975478e80a9853095982b07d3d0f2f50, 0x6bbdfcfeb1ac0c357bfd75b873980cd5e16651a3b97124ec4c24f778c2ca30261c348bc2a28540a3cde2678096b083a194a374d9468b6318)
  ; (0x4d75b91d28f58921a6d25e1122862cfd76db0375c0e72cba8785ce0110a6d148da47f4d628f505becea87b7cd1bc42643c1a44af03d3d9d6, 0xf7406f0446e39c406a785e689fc2c0a40f9f09d872a5cb2b57db671da588fc92caf65dfab1160c6891ff801517ab54d2665ae45ba11b5c5c)
  ; (0x55a110fb11e4d1882244a3de0048cb9d5068bdcdf89c98acb843332902cb8e80bcf8d5e22c16f64f698a340ac0a64aa9cbdd5636f75a3f0e, 0xad654d55be9ed9b05df5b3035833e9644c0b4145deb193b2b1f296c88cca922bedb782da8bf681bc3f92b2cef87a067a91957984aab8fa65)
  ; (0x6ff56a2b4d852b52ef2036e9a5870ad6e20f680edeebfbf0ee6ce57c0378e18e0bc5f2ef5e5ec2520c6ba8c02dd6e6d2f94e14e452fb198e, 0xd37e615655d9a4f9f2076b977aa61b55a0bf6ad5e1c04c2823d1349a84d37bd6185988e7ed9ac4dc30b7b248cc7d238d6097cd290aff0ccc)
  ; (0x6ba91e7ad5f28dbebdad9043993d88b2143d18d4412371d46c4d297ec2cc23ca2cd9d6210d8502d5a561a0aefd565c998ded535858499895, 0xd6700efe7f3b4b87eb95fa1d8b4b56db3d5a28cd8d0bd738cab26f3b8938bb55458adb995099835ac427d35cfac5d0d5c3c2bb3f13a731f4)
  ; (0xeecb4fad4048c156ab57819714a0535aa4a721db23a310c89025590b3eaf7b46c99752f499b622c96a73d3be37e6dded6d962c920ea1e57b, 0xafb04462a1162850a442ee02b8245d5a0f495a8d812f5deb66d00ccea3b3bc3725527d0f5d7765750c45c4e8f2e1383cee7b79ec4470c466)
  ; (0x85f366b14b7671bf9fadbefe128e6b8b16e3f09368ab32fb72990120e5652a30c7ab8d413e1aef505d370585b45096cc5e0b5b4244ffa0b8, 0xfa854ffa7485abaf32f6359a64504d9f430897a4572fe0d5b7cace71c57cf1329a779069c4f0613190425e2769ac3045fcb2f294090608d)
  ; (0xe33de4ddb588f6fa30262001c7543e7b539a89de948b9d1661032a19e322ece01fc0a8eb1a5977e0a5c8e9d458de0edd380064cd704e2f6f, 0x28533efb3fa9b5af55f4a505335b0ecc7f08f696c98f03be0f6453b968f9e3f57b931622c93e5dbe29bbb436480584c1b4dafbdb954eb94)
  ; (0x188c080f927a99c424330bbdac1baab482169208028b2c7c975e386dda9f6720bdf1be13aca3fa3c010022f3b463502eb324ee23bcf1bcec, 0xc9c0ea3f1eced4905f6af40645234892c444eca9a6bc451f6f94cdc9088d04066ce8234a703afda07e50e91bff0216d13180c1682bf765cc)
  ; (0xab3d292f672ceea6f672f9852e30c4b8224c2aaf8d7a9c82c0a9e8499b07d985c8ce35c525e53f90089803c0b7a7472c71ef8f126490b11e, 0x4166a59edd923dcd3bfaeaf551a81545d63bea0f3636215f5e8be0582619f13ef4bf66e293e68450a8fce203b9d97f26249575e5771f06e6)
  ; (0x5c84d657e45e1ce6feabe7af233e893a07204505197fcac44847fc6686c0f15a3d52602dac8614ec81a3fa31368d5c29ca9ff599b3a101b8, 0xf4d9facee96cf00f77cf6790a637473e80621b6423b80c15caf3502c2e3e2c59cdcd6736e32e30e7b94cf5dba0098101150b0cac48a4d9e5)
  ; (0x9d67cd38d619faf7a0deec6b63a2380292852ae5f5913c704dbf7545e08bb9fcc717afc7db26fefc1334b12baadc304910c51c7f6d658d45, 0x7335a04ea0d55af2f23c6f91f24a18ef0474e0f19abeaaf9fa7e23e0d18ee3c8a90d9409a4fa4a55dac58d4fa982103eb0ded4d1f4d630b4)
  ; (0x9e5ded0c806b974712561c043d3b5f0ebb1ec4208e88f59db357348c8b0a75e9f72fa85301b7d49812504e43b3063f105a3bc8e6827e8d86, 0xfc3107d9022df945ef0642d96ca5a3606c9707f22f44f1bccda5dfe93683febbd2f63ad1acc0ee9455421759ecbe337cd1f9bd0a62121d09)
  ; (0x956bc660142a7d22f5894162c064fef20aef475a77df368a6d37a9ec3bcfd828dedcd2f43d2d5b4e5db9df213d55c7c761e81320b44be755, 0x339447303abf139470d535db36796bf062cfd3d11fdada964a7afc50c31b4017759007a740bade383f723cb9b72b6e9a78aaa10e27daec78)
  ; (0x9ce51e49f0bf8089700e8fdd309bb2148a04de236c6e6259e219491eec7f9928731edd87913fa9de35e03737f7a3f2a96337e5b73eb8b90f, 0xa632e9e4a2cbbc5c8003df9ed8779e74c5608ab024b65fceaf24fa905e86bc8c53db73c2b1b2a1285ee2a4b570a3bc5f4fe7ec421301f17b)
  ; (0xc7453815ab1fad68789181562d75d49357a58e7ca69de8119c0e839687149bbc3704e0ccd4daea3d3aa4ffab636b6136db487c35c2c33481, 0xff02663873b90dd4f760050701c81c6410f32f59824bcf42fb5b1b416a97e65e279873a01d5e06aae50d7ffc3f0b1ddde50f1579802c9b91)
  ; (0x40ee225420fee01ab7f251d7a367cb4aee208e656f08440618297eab0f4bbb27085fdd168c211c8c98536ba6cb130e454ee3e8918615c8d4, 0x1bfdfc61efe3929ac9cf4c898a1c413bb2d5b823721513d9f28d3f9003281b735c8fcea216c1cf585d3e6a2077676781a95927e8849d1eb2)
  ; (0xfc437c1ebe900c9616733ab9592d1626d88be243bb9426c1ea696f46166b5c46a87ce88dcbf19762add13b0ef5b41ecc66988d321befdb2c, 0x1d483321590aef488eadd110719ac6669bb1e93e70f47fcd7e14f8e3e1e50be0ec33f6279a9dfd7157dd9cf51ad805c885454717826ac290)
  ; (0x530eee10f9c1c4a2e39558bc78fd96493d77c7d57a5c867108c3913975147cc31660658128ae0d916d47ef49ea94f050ec972a6c29752104, 0x6b04238d404b593fcc958bb30ad397c961225897a54dff01a9298b7d015d9b89897c9447fcf09218f772ddf9ed36bc9646831f78d76976)
  ; (0xde58bd78aff3b7cabd4af0c971596edb5ceb1bd1c1d261e64942b4acb05892d28038f65e6f482dc5f3d77afbf6696854da804a3ad4af930a, 0x8f73daca908507f19884528a52b995d3b74c905e8259543e2c2de25656f41e9cb421c2c37893067510960adca620379f511278fa98cdbffd)
  ; (0x1942f6983e46cd4da719f57928a043d59710118bf781668f35a7376abd868f90bd99737d960b0d9d5e594b352d38acecbdc53ea2e5b2de2, 0x4d9ab23505193cc734e4124044ced28018043e066aa41c701c2181afdb63e9cc8e3132202809fc82a104825956b4b5c1c5ab97fc8728bd76)
  ; (0xd3d972494f792a3d310ba8ad2e5c5d15232ec1dce58c2938b79af9cb318aae647a5551e55243c0ffc788da21a46b94a2180bcd42af9f0c3f, 0x48df9d80df75151d1d04cd2e242f35f9e1cba7d234ee3eddcf5f201feb73c3a54dcd3aaa9c9cf69fb7a12f1ed04eb54d9ddeb4ca112a9553)
  ; (0x54048f53f917b6aef6541a2377d974475cc401a29fe0ce4d3e2d4f647599aff3f0add7dd7a4c69979436b2a8592414f5e31ce92ba86f4534, 0xfc14e790b6ca4361033fe2586342e68eda0a1aca4617b1f10f7187faeab01a8617fce4c718369aac9320779ba2231493cb1b86b2205312ec)
  ; (0xa69c4a7eb1a910eeb2321eab3e1d92e6c73e76c0987239b0dd5b76d480dd0ec80997ad279426a7d61e4b9af659708b6380d37e93221482d1, 0x819e2fa21fab2cc548c77e008f58aaabae75585d2c0d518c58926876342f29dcbea01b44ccbedcdb3d973ee6957572b0fe46d6aa7833d9ae)
  ; (0x7e4776d21cf780d07c1929598ec5535e23ad821406b1787ff76de28fdf61a7cb63d4611d63e5b7a7cd88bc0b8a1a029655ca09ad46bdd8a4, 0x7a737540971a19911178aba63e8e94af19f652234a8966ec44604f6a47b005adf4782d2359171f942140c86294772d71ab7275d65d2c8c3)
  ; (0xab613cb0a1cfde0a90fb987f9455d67e3f213652507582378f163c87974b762ef5c9ce412b077acd864c0b44fc4b862e537b805b343ef06c, 0xbf2ed0e66495a4e60da0fb1e0e5f71a96b8608c6121bfa62c445aa9653fe737521e28feefdf75c3839fafb106f10b6b8dd243f076c464d74)
  ; (0x7c93749053eee5d4a08cbfce0b132593765068a872623789721ce04e2f0d38d6a5b0af972d1cd910ce4f5013ef219826f99726e36567dda4, 0x48eab14a8a03409e567c37180224cf46985fcc208824b96e775e3ed6935a164fb4c50a7717d1ee2289d3cddf256441e512d3b0bf4b99bb16)
  ; (0xc9910edb99b2b5420ae6be4bcabd8487f8444fa9a0e1d8c0298699e763c6efb1fbe2af0445675b7f473097703ba2d7f998e3986b82e6b4dd, 0x7aa4b7aae017b4aace89ffeccd332192782cb104edbf5e686bcbbb8b02b04b1e153d2bc319c4e05b7b8420160787ae16331b1d9fa5196bdb)
  ; (0x238928682d0d3111ed5c9089435b38441aecf485658dc8822e5b0ab6de614e68a27cb22a92d47db7a38a286c7909ddbb7c468e149c16e981, 0xa761dd8ac12f13e351a8f2c31ad7b9b6d5b965c3c3ccdf127d0ed86cae7de5a3ab73844099205eba563b295242c56d76afc6698d472f2f31)
  ; (0x827a416ca7245615dfe1165f8d90805c5e282bf410534a0070090d08169d1f465ba3c395019ca40964b42de17b1401f93dda115ddf171ab7, 0x22185847f746572ae42de670f473155b874bf810b9e5be98103cdad22db5e8c287b3a608fd1419ce290f8bfa54cd8ee6045af888433a36c4)
  ; (0x419a0171fda313bff38cac4d9e0d6069fad96d2203fd92f5d3bef7bdbd39f106ad065ea2c7ece99f4caaf30860a7d04597230baa1788fdab, 0xc087d7c3bd18bea934d5e3ec4f38140892c302430ecc2687d9b6a52af2ee22358c90af7257d3b23facff5af99f2b282b405d77fd8572f035)
  ; (0x8b801845ed79bae8a5bcf5585681242f148ab47f7083151030749a271dd36f3346d27630b9e1af51dbabb3f0bce4d6e29ae116a96569f191, 0x8cd9c9761a8ab978889e954064e8caba2e1dd0bbc90f95498ef1d3828731aeadd99c9f2d34cacbe4c39782f781d2b88bc6a4042fd3894ad1)
  ; (0x547e66093a79833ab22eb12c0d457bf89e89b97adae48e1709ab6a8287febb832a34cbcb0ddd2f0e9998b72a38445e89229f6781bf0de5bd, 0x1ca9937215e8623e3c0424e2ceb92e732a42bf09bd96f555b3a5925a679e73915218537f6dca239ecbe5cffd9fbdb400a7aaf7a9b5800209)
  ; (0xd5100fdf1591e4dd7f4f518381fcb705e485ff5dbd1167caf130bc4709f5c0f78bd269d566f0d66a32e4d67c79d1b92de9cec8554c64cc37, 0xd6ed33b82349150b716bd72174c9475c4f22b602827e5a19889fa79477d25d302f8f6799d12a6c05a6f9d87d107823a467263ba9e93271d4)
  ; (0xeba086e8224c316ae061ef5633fead735d5c7f7930c87f72d5936d6c39ed83439fff0ff39bef3f469621111c3e643032cb6881793fde944e, 0x1d7097768ee6eaad280e9dbe91f59b3409ed0d7b328f1cc5fb2854bbcd591ca4eea07b91537eb28dc3dfcd0351efcf2d708ef02de1fc69af)
  ; (0x10caa578c8742d7ead0a4f5b00ec9f093c46267dce35360453efe1fb1d39b54c285bed98923680ac0dd2666717ecbe2184cd5e573484e422, 0xbc5d489731cdde4f1ee608c4cdd55226a0074863d021c237e49419a1cca1409540d9151f1c1eb54d0e43d798f3a05e5a5f5064b0ccd5a379)
  ; (0xaa47d15a754ee5c947e1e8f903cfa05935e10ba454521a3351e526ebd787419b9da48abe2f50ae64e97f8742a1315cd6bf31f53ffa0459e, 0x24ab7a98b21cbd683119a404498bcaefd8eabbbfdbe04f609c8a2b6b33f3a4cdb3819424dbb2604e634c9c2a5d25c9968db2849efd814825)
  ; (0xee1abd004a2e661b9c403e0b17fa050d1d5a1ed488ce0f0a3a39696652459b6bd3f37bac4b3ce4bd6d46d79e61cc10a4bc6f1326921fa2dd, 0x3b7f94dfd7adcfe3d12dbefe0a7375f5ba72223cda7a173ae967b17c45cbb1cfd22df1cd3463479047ae6513d5fbe3344197065c35cf3e3b)
  ; (0xb52e40183257fceba9a26d5927d0ea5a55979545ca3c2ab2a45c82bfdbb6ca0bd5512800ae8565cdae727b1991f48c2d8c3d0ca736aae0a2, 0x7105a086dc0a39b700dbfa0cc9d907f2079b892baba314a9fd8fc8691d0b5bd6e3b8d38cf7ce49f8831bbdaa081e3ebff255ed517ca9650a)
  ; (0x58c8bb35742c7efce5cebf265e306d2efc1c12a11d35028888e69be38c367020e5fc45aabb5283dbb08ebfe54b218dde4fb9e93aed7462fe, 0x2b7587e74c6d354502b388f3ef0ba9a0cad1781f58f3303a9d8b1ea63841c88e4ed29ba10d6205129fe5a811f33dd020a432e89dcccf7fa0)
  ; (0x5e09a5c1fdf3eaac6151ad4a3494179a00704f3b72092650f6c51c39328fe5f61b740a7be0da8a4c23f440dc6b57f4d49078dee5af7a94b4, 0x10b557fe9f97038a4413914287af627d6e5f33201e286347fceda1116c8cb55f4ff70e8d9b2e604874326f88ffb735dc76ff5d168e2544c7)
  ; (0x49e740c7d24a11ccadcde827a60d961a580a737d17de97fdef682df1d5f04523a4133d8b13af668dbeec2c53910f6b1043edc5939d9bc55, 0xedc2bd91fda06479cbbe8b057de505f7bfa08962c286c9a5a64ebe73d8b58d60973ec48c503cabcca0e575ba1c44303ddda44e354dcd3a70)
  ; (0xbfa95afd8d2354ce7c86e4e79b2d980070ce52018bb316f05d2252dde73d79167cb997360f9ab9de8c0663215e595dbbcc91ed0811917073, 0xded36f9ce115f37e0466ebb2d8d9aa56c029960dca6aed5b911be918e0b1b8a5afc8a58dd85a6a4677d02377e6cc50083cca6a58056cfd01)
  ; (0xeafcf6b3c37da1594d5f506a056bccd87e3e61166decc0370116c7ffbfd76ee88a6f32fcea8e4c0fa6cd0da991dcb798be1811dba6617e34, 0x6feb73b08f737e8178a36629e9d514606d3bb698235609dba654bcd6a880d9a0d1ccdf07863c7d7b1bcb6e0ad799cef368c7acd532005dbe)
  ; (0x2abff5d37600dae7680542913fb14ad56f4a657588e8b2486947f1dedb9935ca14269d901e76fef1ea88a1884d473c0caac6eaea123ae7cd, 0x3ecfef9581d0707de7409e130d1c24fe1cf9239d49dfaeb8dddf62df587de349d8e759b1038394ab827763e76a446acb69a814813a81a797)
  ; (0xceaf2fbd86f75263c410ce05c53fe9e5513c8d85b949d8b156db2bd2382483832d21870077b5f8cece85ae7e5818c6d1de8d177a0f87c72d, 0xf68bea26cac4dccf68721acc14eace71948dbc66e3d573cb595edcfd581e0401e2d045caad82612cfc0218eb15d3d06c750b432fe93806c5)
  ; (0x5b15dc84aa4d69b3988f1f5819b436fbd5e26eab32e5d6bbdb7a52380202dc7b0665f2ca493563b1f6422079219a0315bedc2caaa03ced48, 0x4e406a066802a589067d92300dc403b21e26b76c2a7af516b150bc3de38f7b78e4c4fd119bfdd57f677927471be91a797a52feed54e5c24)
  ; (0x2fb47b6a750e96b8dac3593e53aa1c98fc63b3e465a9f2fd920b60202c68e1eff9406acf8fe32c4511c7646380aeb27b2c7feda63e485f70, 0x747ab75a46a6bc5ab284b35a2218f56c5a33bf07c4647f2aab9182b5d13f2db62ef7d8d6b3c2b55b93181566944ac7aecea373ef1950bb3)
  ; (0x272b4ac7aacbcb319e3b4c6c95939c1b1d206cce537cd3251bb3384f5bfb45b908454d7ce12a8e5dc8e6b860d658e6a42f7c5e20a687229e, 0xe2ed392d3df6c4704d6595aeb7b54adaa6c2529e17925bbfe1e31f894dbc4179b6b6ee38bff43c832692aab2f1c8340d2ece22a583d3dc54)
  ; (0x29b6553b826bf48602e19db2cefd26cd88f90ceaf718c506c44b4204083d5cde96cf20173b7beec48c54017156dfc086421573058177d52a, 0x9ce778a65a45209f19ab0ece1e3b70b418d2f580e06a95fac1a762485b0b99d4c86e4103c387c554e643379f7e294db752cb7500f40a36ef)
  ; (0x273fce43412995ed0596c3e50c04be5441d2b3fd79167c97e4507ae8e1650e9e80885d8373893cf740a377c945b3560ca2b6634b7bfddd7e, 0x26102ab912e60d6acff4f0ed024d7de143a3ce9adbb94ce4f20f5fb19db0a4f79e641932751ae53749ab6674a943cadba29ed2589dfcefd9)
  ; (0x2d3271a4065e928e753a2674309da19f946164535f96e1f7b4ee75de72cf6c566022d50e734aaabda9355f5001894f16c7069f01fb560d56, 0x4bceb88bb6ae07e4e7dd3748d2cd9c983ad94e196ddc51ae939f4d22e01d9212bc5c9399356c66f8e3c490d0ced8f76ca250182db422ed2f)
  ; (0xfe8482a63c3ebfa612550a6d5f2a4c424f619d7c8bf82df656e05dd1f83ee1c5378f2b397c9557df6ae05967a0dc4824485b9236c86b85c5, 0x2c150e7110895ee3e1db5e51e1192f6858842a65bbcbfb19c5a0d306089eb3b13705003ea51463eca5ee08b06623679e6ccb8d4030142c82)
  ; (0x99b57cf3fa7fd1d80dacf378ed8a1113eee5c407b48a8172d990be0ab6f1eff9746d4c8867da035c759f5fc931f63b87e2f323488f6d4c4c, 0xc3ea4f09544a871f71d0aea550f272f1a98f3f1fbadb3756060148dfe73fa126c1fbf0ac55b6b8a7ef8d6b8963a92e83b5f5bb6d95176405)
  ; (0x70bfaa8c210fa953f40ee66a6012073a6b21027e56793cf6f067c550b751d7acfa33a1e0832829f321eab84d861d34950581005f68e75666, 0xf9373b9afb7baeed658dccb30cce3d3e8872128dad63a529a870871fc5cfb2824e3f69d91c281afdf9238f0b53024b8d9c1518e39e4b5998)
  ; (0xb03d202485f7aa36b184e86c72d23c17a97db643912c87ab11abaa4acd40907ca58de2745e0c0828e3199bed0efd8ba391002d4e2849c230, 0xc4ccff6257023590091fa3faa2691818f6a35c17927afeb09190e9da35a4d5b903840af5d1db966ebae2dcb78542325fb22b6b79bde24aba)
  ; (0xf3e1c503e9ee10f11bfc86b2e3c2bd1a1f3682af2cbdcdc8146fdd0e69ecaf5037c72c14101c4d0163f8ff46f3ef556469bc97b120d14414, 0x49d80c0a92203c78059026dcbe14aa81f0508d9b59764c11cbed7c36ba019643aa260b67fa677d83a85d9ddaea4afbfac7fba7d9544ab551)
  ; (0x409ba5c6ee2edf038c114df5b309ef0a59305c3819f529f809becec457c1a8c260a3acf840a95e700b99dc9663e5f97c4d2a79a02cf73e5d, 0x92d8941dc64af1c67dbab40aa07b5d7ecc47048a4fc9c6fc4ca35679a987c5626875b6a1fa88d909b9eda590f808a798bb27a787f19287eb)
  ; (0x5a71ffecdbffbfe4981263921f35849a990775529c71e27ac2b2429bf88b08d8b937a59a505b71f61d3bad6cf0e0d531ff40dd6ee74ffec5, 0xa028b344d64389483dc395108d9f509ffebf367b4114d621823555d889abbb17571f32d18c9e5c98485fe68f115fa48d0edb67481b09f0b6)
  ; (0x9b7a5e7c969d51ab5fabdf653b08d0a6b084e68d72e8bebccd60392002a46d1e295403de02ae52fb6b70ee9d054aa75df2ea78984f1090cd, 0x8daa835a20bba7f91751a75dc4d02f1bfccbbc9e348a50eb8bf64e07980555595df64683339fd71f7cfa1a735517d8fdb4886962bb0d6287)
  ; (0xd0a231ad0d2085308117f2ec9a0b2f7f7ba04474da920c8d051316c329d256ddbf4f85b2450f37a90c11fca24db7ef7eeea177619ec85940, 0x11f03e8d1379f3b62444cce72bc3a71d045680697fc71b4536bb93ce5eff260c0a33f0768f014bbf8253c68bade9f4fa32f3288fc7ab641d)
  ; (0x7c2c3ab3cf1ad8eb9621d181a666f17c0214a36b8159682d58a3d953bd1b8d33fecfc16699f60fa2a9f1874c642e3ed1421f54789c16df92, 0xd6d02724594a100d534704909ac0c750a291363666c17d989592e3604aa7bc5891c68e63b558a83e31ac197b66ab355315e6888c3e529f7c)
  ; (0xe385f8208349da9827402b8f93b7a80bf8067853897cbae1510a21b45f4727ef32e5dd70a318128af72c12b645ff5ba8341098163cb7d458, 0x6c1f083873f8b3697633c3e2569c82b0fe680bb81f7b2be0f13716ff5d13f914148e61e79ae12bd5574d6aa5b26e7c01912d054619589f6e)
  ; (0xfa7260db0b3fa84667f0128d00dd1df5ec854e678bcf970a21fe6eba9869620878f0cce5cde9d5c420239fdec19ccaf1122c9637e48bf5a4, 0xe7b36eae4acd4470e29984656e8c46adf645dd4c08f4b12e321930466440c273a278d514e55ef6cb23e204c8bc52d2a50d6bd2895b34239b)
  ; (0xaa48f995c3552a0a16e7547a0e847346769afb037612c87e22132c274268900042cad12f0f892574a4a87f18e8ea3998fb741c75bcec9c04, 0x341f524a5384fc609f27bee5c598bd8a36a584409e68ebddea71c5a3c4d27e33907defc6d85441be148200362989d3253b30e29cd52121aa)
  ; (0x591dfed9683f861f2eb3b89cc47cf05aee18d56aede6c375f7363f44d339b2e66509ea47482f2bcc4290665c3d431441e22d144015fb59bd, 0x7159d1752044c48178bd177c429bc7275c5bf84b137189382fff96758a44ad63dd8e35f3603f6a08e73cc3518c25fe4b3d2a510e9697a469)
  ; (0xa4c4a8b6788e0ea89999123435121e814ceb03651db3c2d3c442387e7b2e4bcc17da7b3a2f4467cc94a438eb99940470f43b0256207a5255, 0xbe6215c5e97a005a6315331e0b065587a84826ded8f05c81520c5f881d6c7ed8fcef9ae16948d5e9afd4aed7c613dcc9ca4a4a5dffa871e0)
  ; (0xf6045cdc463b0f2ca892d3f04f6c270b76234d649c247be4f1d312e10fff457089da9ebc649125e7677dc64b8885aa9a60509ad2306c5b22, 0xa08a19b55a31b72c3f125b1486803c6687f2f706942b14db9be108eba57183c78fcce2b38e7aef8dc8b8823d23c31de6d11e4989a0eec27c)
  ; (0x61b9814622722016c4fc6d1773d3f390ba17865383947b30980c301ff4aac225a6a2cf44d94b4814e8518497ee426fd357ea64a5716cf664, 0x6a811cc6553261a7de0d7ee33a6167c12702f2cb0efd73ce9ad780894e85e450b6f1b38f2205444ba955290ca820f160df07dd03a1dd0270)
  ; (0x93b603fc0d3cdd8fd7cd1a075fee1841a935bbe3dbb28f3738ec901bdad7b4ba1aa58bdd28cbf8044886e8d2e95220a3415ef05742d0a427, 0x514da7a6690ce4c697a015905fe5a4f65d0e8d4d69f1f532bc80aeb31224fdaee32be53138668ed1a3d7a4cb05f64ed687ca54fd55edd859)
  ; (0x2b9984b9c2b2cb9a44a1af86717f35c869c141c54793b5f05512749b565f52a80d18864e8089b5270a413913b11f9e55a640fa6518e62b35, 0x352b447fcc5a9a678590ba11210c3875bc2471d32b27cc24d90634ca6071fb7f10668e9b2fa8c600eb302d4072f7af146461fb6074952322)
  ; (0x84d9355597f93f7e3a083cfc88178bc5f4c0f031611aa11aab25d479184a30a9ac12d092f68ab5e04efcfa082046fb2a2abc901b30e9fac8, 0x59c31bc604b638b3afe99ab26347c41ca26291af812a49d39b98ddb6816b95aba745ebb056942f575789b226b098d37b04c014478239abc6)
  ; (0xc896651761362d736cf80d5ebddd4a0ca212bdab06d4fc6f97ba8641b7509b67195cc7224789c5a44ddceeb27a55dbf1ba99f04f43db75a9, 0xee9d5644d3ef29612187a59ed2a225c1a88f2433d0d4896f4096b027745930e5013810076666082847d64893007c51e52315300dea7abc8f)
  ; (0xd5bef3dba1a129fde9138a17644cb4f8803d6b63ec6db6d460be1c1e4471a339da441a9ce3efc68eb54958f826c881b018a46108916fecab, 0x9041bb72e1b733bbb2d0813ff693c11021aada2c96d5dd38e63751ebc182fc411558a6fc12204224368755701b9e525b26e762810c9a6807)
  ; (0x5f70676d263ab33a14e8d4f73a5002b36fab456fbaa61b1bb9e4adc050b88021a774df2f5d3535153f10648019fb7feeb7d2afbb973e592a, 0x837612f9d913b320f89eb9b236ebc565d7788ad52560689ed76475216f593c272f16c23baa61a8a7aada1956a68b18d2b883f8bcd790b356)
  ; (0x91d4c221e7c324cc54dcf826e83501c89c48c8093279ac0f3fdc514433d4810ddf49f529b9545f3a5d2a1f7b8eece34cca65a5ce2917534c, 0x452f7ddc8d8e02630a55affa1083a8bcff86a0149ed99d1c992d1c0c089f61238a12036f14f8eeb5787786c22683a3e4a9714a1c3a52a3b9)
  ; (0xe802cb51f3841590f928e726c946d6d28486721ab868fac00c79cf17a289e3bffce361ad49b41f5dfa0731c9c92052f00a16a8b9c42befd, 0xe058298d65f9f71c765e7e7db4c9291c2c6ae8d050fe32311b56c6c6294da8c7768df0ad96ac79c05826b9bb0cd8120fb86a6a57a0b694bc)
  ; (0x9deacd2442d562eb5e335fb623ce1c789f9764236911436bff8e5c8d4b350a1574b14ab5f7f21324ace3a04ef95de1dfc84bfa85b7e8d345, 0x7c093bf1cea10f0991376309f9b83a589e3279a16010e3fa541f19708b6d5cd0161a0a76319885bfadc43e2c49aacb52a4ff989f531ee71)
  ; (0xb42987d1e56af29ca2fbc57064662ff88f18c39d24579d58d4380b53a5bd72eaf8cef49d9392df8423fb148d7d1203772e4009798b2c4fc2, 0xf81209bed9ced1c9cb3a9d0fa7f33ab71648a23fce4d553ff51bfcbf8d068c95cb41455de35742a94f9c4e5c2b35369d76cc2556e5d94ea8)
  ; (0x18fb01fccf0e430561802109df9a8fc83d23f744dcc7bd5ce816048b763fd501f586d451a5b0c54c76abad10fe9bc746875e71752c03dd63, 0xbc5f91d3d04d476517a6148cbf95c7a869d028248f259477f1a172103c578f5516746a3aedbbd5da73565878f1fa664c98e4606fc038ab23)
  ; (0x6fd79308eae380413b3d5248072451e6994191150bba6c1241b60e97270fb80ac4a856ffa8b2c59a9e955b69b94058718e687efba35ff983, 0x50c54658e966ec2225157957bab2b340afcd6023e9d07db3bfcee4cc93a5fa6583a7af391040e74abfa00b01c46c020c21b38f535a7e1bbf)
  ; (0xf2b93f0e3190910210f2816a7c32fd9abaf7c3f36d0f4b7fb9546069e528bc1fad0145107578f93a3c1bb8696eb5d7ec4221c8eae2b4ecb9, 0x5e39ee1a8e708c2fa6badb4590bd293d51720640555a24dbb3be4aa3531b600326763cb8c1c32c24d6855a65ba7bba689c4593cf05ed3429)
  ; (0x60d06c78416087cbe5357f387e3132429296d2ab27a62bb4617e10cdd83e7338810cab5d4ecc59cbae9184c5473cd5b031e252e10e98fc08, 0xf4b4220fd59440aaf968465304325bcc892039b633e625e800da891b5246b1453603aa2bd9a9ff7e2438a93a18ecc5ea92825951646f0911)
  ; (0x1d89ae5e53c5f7ad65c6f05757dc3798bbf738e83885c201b2ac61b821eff79835c3e157289207b207ae927fd5f29282d737d792559c15dd, 0x7a1d9cdf97582f43c320ed3e90dca01e3d41fea5c69d8035bd457348d343f66d5930d8c4a80ad5ae3c88b609f57a5b134958f87ca164708e)
  ; (0xf7e528be0650f938a4f5888156278d8c29e76b463f72d67421a9526b8a420d575eec13f516af356b676c1161da02697ca615fd9a9083ca53, 0x8fd676241c5edfad7905a481161e96212f64951bdec3b3b792b8d04a5769ccba7c110196d3b9de4a0119638d183c4ad83c2cfa78e382edca)
  ; (0x64798c9834484f7bb3652cf2277f7293870da0f75d1d7f0fe654d127c92953f950ff964a976c6cbd9fe469d0549115a84af7b063539d6cde, 0x6c2b5b8a51cb978b75beb18b7f00239f58a96956a4b9bbf83456ebc3e9da9969a5c03423a6e9f2722e31f5721a97ff776bb94d8bfac3a76c)
  ; (0x4312c464a683f88786c47318d3ab508ff54b22d6fb8a51993520fd01ac0f6155ff0d3dd39c9ca0477cbc3d7e29df9aebd119b0cd701b80d0, 0x1347db22ca662b438e016b783c06bc931ad7ea4253791e92ab7c498aafa90016841df35723af29bfe83e0d94fa5963011e73b1d3995359f6)
  ; (0x4969687be1f3f8097d922f527d562709530e85261f0f13d80299e3656f8a5de2732a33baa4f5a986ec65f8750c71f94c51ef2bc0384f3201, 0xe9bed3c7e85a01f086833b907c09e3807b7c9b76c6cb01470203e9f6a361ad36e2cad675fb042320a87eac67b874aa4be49f3f5043e1708d)
  ; (0x3c92917e90750f3a9d63e9d17eb448cb306464338979df8aabd85c7ae65c3ecc6648287ad2a4350b2653cac16f5af2200d17ef60b056c2f6, 0xa2084f90c278b9ad6f8a1ca431751d8d3579b27205c536206824ee1bacb16cc00a81c77eb204a70da4a637009becc4025cd0691188a316d5)
  ; (0xd3f2903732d8796626fedb7682f651e15a1e47fda0b6611884c22ac9ddf2074e0f2c3b22ec33b60a59d6a6e3522f0d08cfe6b92dfd7e4cbd, 0xe71d0a68a35817b525474305b1e400f53d1572794b462b805925fa70ae4e34c44d4ca9254c21c920a253fdbc631a77a07fb6b38febcd76da)
  ; (0xbfa6e025314f33d4187bfd93ed7793cd6d814b48057512c6c03a112e4612706bd0074414e37a14e207f752b82bf087da3193a9f952fb104c, 0xb5fd79e933e243057bc94fcd1e476469c945e2fe6d6446fc1d7d52e52019bea679c480eeb993ccd864ab2354ed916331f2a734a1912bfcd5)
  ; (0x54242e20243fd84e044c4b45be8c9107e9daacf79174eded767ab30f1fa1da1aa2fb941eb9a260d081daa7beade30ffd466bc69455e3f1ab, 0x1116ccd15049418bc4a91fd0be24c700566aaaf7e8dd45b123c6d1b195872d0e83fed74e9f2dbcac726ed09d78e688eab89879998c5bb184)
  ; (0x617f1742ecf2c658755ea3775afdc265c35b5d284b85a61f6021bd26e0f269fdee64fd0af9f58c494b6804e4eccd2476b6a7ea98991780c7, 0x9983c26e26395de3be3b4586f76188f1d160a20d9eb6196ab0ec6409f7f9e82b2b7b9c7b3c97644b6b2e235366bfd57e3950109e25ec556a)
  ; (0x61a15fdbd4bd7107164a73a44575d449d1e5627b54a240c13aee9c5507f0ef61225f552d82e9dcf2b361fc4d970995ec8a1d7605c6909ee2, 0xa1c3cb8bd9fd574a8b05e2d256bc78a8dceb1c6539eca503b5e5db0b83ee319304db8e3ac222bce0b8c868308c77e7e32630696b9d3a9fe4)
  ; (0x5603fd84f4fda12f06cb31f4e15d786c784ebb013e9eeee4431a4592b15cecf983ea9a517f88cdf6ec7bea712ef24d51707b8820f4bde3ee, 0x50e2340280b9176661c72b027eacfaf92761a477e0e54a60d51be8dc7700bddada5157a4b70b49a41a4e274c66a74a4c09f6790e99e1321f)
  ; (0x2f850464731f61378b2d14adf9e596734d51530d56358f81b3eaf48fef94fdd29e7666dbffa1936ba8899dd05c48524cf9ca884cfbf5844b, 0x8d57fb354df895218925b00ac3012c7b0d04c3708064681a2f551c0f2866d99cc2770764052498f0f958a4f89e06199239d6ae90599dcb83)
  ; (0x439679376816a06604b0305b80602850bb55fffdff8dc68cd0639c0a1f71031934305654d840ea2101b77dafa2b35ea4bf76968758eb660, 0xe80946965f1a2e7d20307cec6c108abb3576044dc57d02a7e946c6effce7e47fa229153b571e5ee070205fa7073785da9fe37b7913627295)
  ; (0x7f6f6b6410deccaa9b22a5de9857a0c9aaf4d11639fde2da73e3a887b4deff23e3ac88a516982e8a44ff36351c8fee57db800065701d5599, 0x17fe0ca69bd7d65388e8325993161dc7bedbdf529168b5928c9318aed2f06a5636027f799cca2d67df63bfff90e2e9e9bc28846a3a626697)
  ; (0x9b1bce10aae1cdfc3cc4d4e99e450351b01f5df5cfd3e9fefe17a9a6b4862c7f813d125f3a71dc91e575e59f0a1f7375f025ad664cc9d75d, 0x7d3748470bc9216d515cbe7ae6949750e6f0f8e3d2a38c6de2d6c021a280eb4e69725c74f2abc8a1892e15a8c7661c21e1151849fd67d07d)
  ; (0xa6bbae11fd9a3300e292d61c5b03b992292572b9cff3909f336cc4fe7e86eda10626ae2bdf04a531870fcd060997b95d496aeaf64bc74d04, 0x253efbdd8c9736b798b15ebaa979753d4d64f9a477bf7254071194b22b029a2e91a8e60ccaa961272ffe6881038c78b49f3ef0c3ee1f8ef5)
  ; (0xff3a5a63fca108da98bb50db4791e9b1ddedfbeeafc4424d87c55d566117a85cd51acdbd9965000ae5e258c761c0e95ea1daebde0809c8d7, 0xc357ff003ba3c8e9abc6428ebc89647a4203a043fe338385a5dedcdac1ab60f671dbc61de4b0b8967ce29fe12a7a9f6cc9172fb8e5ccbea1)
  ; (0xd29c85c17fff71f51aa1037f67c9f2cb7a4a2a1ccb215494e98bbf47039345d99f0ba2a9a6f6bd6bb80aebb91352be567a37061e7de39ebd, 0x64e8818d91b26e550ad92d7fcaec6a5d86a32e418b901d0ee766ca5509142adcd701019b9f9cf757075c20fdf5593a83098d4e4f24d30b87)
  ; (0xa08ce3c2b81bdd00253ecaee724a6fde35642093e1a9fb2ebcba70b4ab2687c581c6f0ce2a4f11ecff3c3999a5d97d24ffd46091ddd2b71f, 0x368a97b4564cd1f25755ccda32e7794b97631d8867e13ebaa01fcebd61f7ed35a6a50e011469e988a2198cae1d4584f750a251238935a2b3)
  ; (0xfe2af1de33166716dbbb4f0a5c9579a16084100d05d583e2247146b806ab5c02d110dabbeb9f8c7817656282260ec8f61a31ac9b9d1824b7, 0x51063044bcf7854491371a05bfb748dc93f9cf12765f45acf07b626bfe9050c57944a0436bce61d95e9f1cb8c91eec08fe26f0364af8710e)
  ; (0x7197500aea02b8eef8518427957dcdfe22dc64ea6cbae926f00d8ab9f6acef99076749978347b67bff52266382fb56f11feb06a44da67323, 0xe35b40cbedb1e8fdd128cfa9825095a219dcf8d6a7930f8435dd783a97ebefef7e30c11744d73c22f63de703b339096613a8b80a4f84c805)
  ; (0x6ea9f773566ebfef8595d4069e88b1464bbe75ff5bd2953a2dd4b42f81a7fae048a2485544eac063481e224d1ff7385941ff90f7a0745414, 0xa5cfbd0fcc7d519fbfff859fe227443074d822400801516234cd02c3018de7c22574a5a8636df831abaa24585797a5e2737dcfd4e446b06)
  ; (0xb4ec92985a6e2c0803bf4640b5d35e51b78e90247086ce716c32d39094f02d1ba80bc058ce2d400b19c9af5d570b869c096cc8af443d46d1, 0xd974723be28a082fe5eba016eeef1a5e2391f10eadfdf4451a739dee4ba7c1c281e855108ac2bc9edc658c44abb23bd01594708b6e465d9a)
  ; (0xdb4ccdbb46f7f57631201da983bd09aa50dec27598b27e64ae50e0d517cdb1d7b72784c7ceabeb497095d4cd2e546d8cbe40f3ccb6af3e21, 0xd54b290fc281e109e314863f156830e51f2e479d8bc8e112ab9830cc2301ceaef88cfcdced07b19f38fb1151c202586cc811e8c8505bc4c)
  ; (0x4824e498005bc6cadf1042a978274b73836e0b755670911b720421adaf446e2754eb532f289ce11406775c5ade6671637bac2e294ed0b3b6, 0x227dc9f5793b04e76fb80b077b2f43feaf67fe4de02bd0755d111d989980bf4aea66dccb076319f33faa1ce061d0c3ee97b0eeccd937c28a)
  ; (0x43657af29f5500af8595dafc5a7608745b564ccd270237b4bfdbc7afb6ef00cdf8b1319d7fed278485d8bc39ea611436e7ea24ae514f49ba, 0x5a4b9b7ea47832edc5be06b02a6207573436f623105d714d981553e57d1a474ab3e9c5859c807be1551251f91fd640fd53300718348470f8)
  ; (0xfdabf30c1f6f7dfd5e01082c74c831f7e5b4ce3d6dfe1b8a35794f1645fdc77eecca8f820a091d06c99b9e40e0a11c22b784c5e809a092c7, 0xa4636466a7515a59127a6c7ae1b5b66deda5fbd46443fdb1b53a547ebf22e8db874e64878c492207ff65e898d30546b941bfa6017b9248a0)
  ; (0x33d0b249c93de7cbaa1718a266719e5f050a900a6565e5e32431afd15e0429383d9459e8aceefaf2f38e85d154e4304a06c0c43db7b3d90c, 0x8b93544f11160bb38169fb76eb76a817eb6cfbfc5aed2d63fa5fcab6665d9b8cd0ed46c9711299a51924c47e5ec20006f93dcbf92d5b6680)
  ; (0x13ad2e014117a7728c330ad99a333ce8bb4287e066b36a4e8c5559d32d88965e7bbf1e7473aaa2a4f1a618fc4b753cbfd60df27affd91316, 0x913834f013b6459447de3348b54eeab1532140916dde5307015fef0fec1be15a0c8ea19786910c5912d8fb3dc0f9be14eb013803a2afd4b2)
  ; (0xabab75622be3220c3b1dd35307cda025365b8531bb02b6ba41585831ed5b8944d3950ff237a6ee9aae45e3f5fae782e10bf62edcfc65478d, 0x69b41251702d72bbde1f3623a327117de5d26d89a62bfff91b369ae3c7adfd6fb371d57bb7c6bc5cff32bf8f56d05d56fc2bc1587a35bdbf)
  ; (0xc944492298a610077f149f1f72462add9b6561a91a9e1c97ad42ca3961bfcb37480ee4f1c65db85f99b19c12943aec9108a87948aee1320f, 0x82e57ffbe9416861fbf4c50d7d5204ceff793aef0ed13fb41aeb33a3b67b1d695a377eb5eb38cdeb93c9fd46594fc7491f30bb653673246b)
  ; (0x99349b4ae6f30e41b5f0dbe42bbefd072452bfe24d526708f719a6b01f25a6609a3c797b600ab106d9deff7ee9b0842d4497150c865199ca, 0x5775895923a242dd307bef15bc7dbdf1e45e9ef120bc761892e93f75149c3462046691ee9006543d8acdf92ee428d4c1c19ef3b275af687c)
  ; (0x97e2fae3fccb0dcfb2bb1f046b5fcd226dca64c2c40c42b866e1c530db82449b250dff0b0a2de8b44b3ebbf09232ae01d602eca52693bdcd, 0xbdd10158c695432158d42d725ddf3f9c7f6de941c640abedc9857d9ba7eed5ae9c8a6b2126abc5f1f67e224dcb9f641229df9290745ed156)
  ; (0xaba2a0521a21284d387d84fec33beaec3e3a64d74ce3aef43dc65df989a72327a9a14cf6a32d113b21773adbcfd13d1aeea7dd24e8df2fbc, 0x9a49fad7e4bc68b43dd81c15414123909de6ca7e4e3626a6f0300f477ed82635f3653fb0c6001d9772c44352d85cd2aad32382c226b85e30)
  ; (0x8795028972e23dc1893a5cd02f2592baded41e9d5837d8233b1e7c9613ca3281487d2b112a58e13a5708a3ab25f53b4d9b5a143b8456b45, 0xb51bea8fb1b8285b44b82c7f8d06a8d0e64f5e4952ad12645067466c5594061de238e814b2872cbbd78e14bde9e332a5e07003c08cb76261)
  ; (0xa80e5fb08c83ea8696842d2f1a79cacbb41e87bbfbb18830ad1b18261bfce0c8905e4be01db05a74eb17de34c0ec2741ccc4be728cb03307, 0x31320416161ae3815276b5e5d243f782f5e39457c323de4af46cd053a9bffd0c1c622d05705c4b751814c1d4108cd6987be48f1633f1439c)
  ; (0x37e94f88d30a6174a8c554cf94a7b16d7173eccd28d35d5b2639872fc725994cb16aefc403277d281c0d0d88668265f92469fa97e9cee33, 0xea82b4c67ec3f47417568f790d819f6d5fe5d5e96e2f3cb61c03f0a7b824317340318e4b5d26dd213e30d5bdf509aac41a18063d2e403563)
  ; (0x499ce5e8074814688232c238a1139ba239d28bb30a216ff1df85780703f974ac052a79c0a8e8a3ec8bc8831e665cbe3226fa53e4ca1654c6, 0x69c4f7307115c4439f03eddbf16cc35bc7c5b3aa8e5b070613a71b898eec19d4a7662c83600821a7697b679bd269c384baf4b90d544a9b10)
  ; (0xc3896525eb20311ca9ddd7ed8071ad02b4d7c91e345e714be99b6707189749fe22cd7742e2336afc16554dcec85ded12bd862c36094ea1fb, 0x2300fe8909188b1b3b89c184362c0f67ff40886b891dfdba04913acfaca16155773b5c57d21598cc5305e1403aa7be8d1f4527d9bbd43fcd)
  ; (0xa67ec9fa37d04a889a2af1a9631aac7334d86642472e9e6e5344d0cc9391833cdf10f67469e0ee505e5e0d9e778568efff7bacdf1153e94d, 0xd23922f69910383e6c629292a353925ae72584614966c71743bce3db1563fe9f7bdc61e8f88a9fa0db91c52c84e7370b3ab6b52fae166fcc)
  ; (0xf43054904435c7dba81e9e35208213e8a7c7afc1e3da56589c28c3cec5641380621799c7c9426ee2007b203be7e8372b25245966177f2542, 0xd09e6320b1f5820fd78781ea774a7f7c581e17e6968e112a53c60627bc40f44a525b11ccdfb43eae7f88364408cfb777ab4d26533691de4a)
  ; (0x3bfc5e3fbcc6fc2ed03883c81fdc53d286c2a017c7373cb1b1ba788771030015584dfe6b02894d68534941112bc889c3f244390bd70aab15, 0x94c1d8336d965d0c0a8c4acd562f6f5b05563cf7f40fd09cf68c48d5194c04f091129346f4f77eab4d66c667e96bfad89ed38ac6ffd6418d)
  ; (0x5c4d2cce03b175c75902affe8b2e600e2fffd1c2dc52152ae80800499fd6399a5496f68c27c2a7850e5ffb861a1a91d02a8d351183d66e88, 0x7030f2f6f45a86028ec4471de89472f1363a6f50753cc6dd5392dfc8ff328451b97b952876012f85038a77cf6061736f878ad7c424f57e78)
  ; (0x980b2c63de387118cd967e81e0e1520a5c6c641775fbbf4b36322d113af238312c15c9a6497f64bb3c21b4352235a13c6fcbdbdcd4608f72, 0xf53ccc318c4d5ec9c16d67f5d98c355050ee4ada6bb439648039626d9c485454129b30fd037118a7f8170281dd2176bc56fa9db619ae44a2)
  ; (0x6b71ac8cf5ac879863071540c4d5830ffbe26127d88b5f6fcbbc8d58de1b264bb9eef49735647b549636e6a9185dfe9f69a822f9adced2ac, 0xb26893a96b4618d63b84cf3bf0e2837980eff2f611bf4a1dc7ddf5f90aab6be1e007727e74da054eb78332b86e8f43d547b3e3f699ffee87)
  ; (0x7ebfb04ad15ae9c4f96e1dcbd22c8e13b021c5a94b94b32b932cd14b8ceaa97a23480f2aa59a321606ff52bebdeb6df3e8a7de138a464ffe, 0x385f1123ae623cbb20ed2107eda31ae586dd55556b6f1231ce38ba870326590df6bb66dba5eb377d0b6298dcfb507050ad904264133f3d6b)
  ; (0xb3f68f1ef7a2207812e56bfb03260db26821a49760c7757b6f120702ab14cb5ff4987a010dc2b094ab63819851971301445a6f504c939ac0, 0x35e717a41d4eccf709a808af8a6116696b729fbfb2315cb3a11b324838c9e9ce46ce1193823461755f53bfe28bd7bf619d0f7c6c8279135a)
  ; (0x793c648dca9ec2927cecb414acd5b08f6bee1323b32f830f9e3240216a9f008342ea19780c16b797cde57c1129ae3080ee0b82736a0207e5, 0x621c76815e9afe9ca6dd7138d2e600d3bf9c99bda8f51f9c36cf1ff43d60a4d54b2dc012fd7630cc83d4e9949bbe3327f3a41a09a3cb1665)
  ; (0xf657029ad6f954da3a91dc51f50d43ac9cfa454749521d18ef976f9a742e0b64a164274677f7d09930f1a6c0b426865eb450ae9423ffb20b, 0xed6d0bdba09dc100a4cc559c3b99e7a4f168d7216d8e9b9660632f0fadc85ab8d8a858fcb55092e0e081d92a5d963ad4cefe5f0646b4f99a)
  ; (0x2c133303b149edf2efab51dd998f28c3bac8ced8292d1a9069fd4d33fc2b15b4e9316faa619d12f5319c1751fd4bc7ca957236d141621beb, 0x3fda2030f3e59b6891853b7175e402890aaa993e026456da8465279b2957533115f67ea1ce391fb1a4cfb54dd6507d6a4565237c9f601ac6)
  ; (0x451c5c3298dc02c510275c5dd841b624be50e1c277d4508e9d483861af3cdc6e0f712dff0d646ed32e45c311d96b5dc7ad68f6bc804bdd28, 0x5de3427ce65f6485160abfa136777fecd09e702a71d280028657e69079e5fb2215b2cc575e129b699e9fda7f293dd06a38f87d479dd34d6b)
  ; (0xf07a476c1d4fb299ab87c7c8e36a74afdda881f73143131f7c9bde9c36d0d25c89a58b22feb4ece7cbb3525c5008645c1e5157a7e3561aa2, 0x9a719bfc6fd762c7518f03de4350cafd7252d74c5793a06fe9efb4838fbc18e00eb0b1c5bccfa2b55d5c95a1e5afcf089f1b82056bebc606)
  ; (0x5d76e00bd472c450a90eaf530c6bb864feb1b6ca989e3e7d34eb8a2e2bed9d13e977938039eca44dee1f436815dcb1121250fc5359cd80a3, 0xa25f467d05893a9d9e1a0b78334ec162d3261f89c96f0626311f0859e27e2f536c118a79de573596b55a29a4da0198232e3e55444e3880dd)
  ; (0x7f9e405843a01577edc253ec2fc7393ea1cfc5627e3e5c50bd3200f27163ce6aad2f80d888e5e0f3963fa24fc3f3f4ee0f9d0ade4e71b64b, 0x879faff7ed4b58e4223fff2f4e4add68b7ca1aa665600da7880e23fab940bdd58c1b36764bc4fcadd29ee3bde9c293d3fcff0efbfd16f319)
  ; (0xa8a62e1533065eb677a220cd9d2595e0be31620bcdb35d0c1d9aac19d68f2ecd38395e0deb2ae1fa9718dbbeab99ced7b0f7df3d2f80e0a6, 0xabf6b1590cf2607bc3458a034b0c1c44bad95b97e14604f890957ba478c4cd860944f80d6b4181982f6f4d924a1a17ebd6c5c6ce5b561324)
  ; (0x83276f88214e2b6bc556ca0bb3d8fa286ad7048461c2eb31595ed6f236857a6e59264912c53cce7f324f059a9e38a99806ae041cbe3f20e3, 0xea6f8040878844158cd81e59731b01322c4f7cf066e08657541f217330983ee462c5220e718f99bff62f8fd7d7e26dfc964f9112e4033973)
  ; (0x962acfe937cedac7c0e9cf62dc4bfe6d73e82d1e15222797d8fe9cc1ef5b2e898c4e65b7327895e0e8657f2c0d70b167e85ee0d832362087, 0x58855f9a0c56a5a0ef9a639d541bd51ae5e6d1207b807e85741b55c7ed63eaba3e93f8badc0558c44e988f2dbbc2836978d763711c1e85c7)
  ; (0x78efcc1c50ca452a378374ac7e5c3afb719d5bb63e1961ac3aea69aab04fc1390f1e4c826a0124f5e077cbdfee745b6a0d7d88eaa213091d, 0x7329d4c35d629738ae8f791675280184e1fdf73baec3baaf63b1b37367d416cfa4b29156d3379ffc6c2227e3dbd88095d0346e8f0b8abdef)
  ; (0xd8fba4d63a31b5cf113f354049ac0062c90dd1c8dce5aaa346fd9b59fbe318577203b539b5acb022ea4b30af45ee22adcfc47150a4c0c6d0, 0xaac94114c20abe41cfd17743110e064f704f1ade8d64efe945c2be6fbe883cf8e8d6f75776ec230ba2b93be6cbcd780bda73b54881056a69)
  ; (0xf1222bc1afcb59da3ad2cd52e8c7ffc1824114c6ffbf98ef12a8f37888c943acb9d5c971df30c69b435a96d282c1ccf9afc9f2249638068c, 0xcc397e5adf80f2a5ba64930775b909ec4662e93523cecfe9b3233fdefde6e820d1e33060fb7b0a1e401ed4477b8421933a459e94b0ee334a)
  ; (0x37086b85f94797eeb9c8127613583bea23b3fff6b0585e90976defdeaa040f66c13336dd3037578715dd5783a05c690c347e6ad26f466249, 0xe05657807fb44e68ca6ae1583f8773ed9a5be495f54d4a278c0763c0c396fd52fd1160e1a5659bb0673e07cf26d813876e4883761fbc63cb)
  ; (0x48f91c5edabf3ed51c5ad64a87512c0bf5bbad64f3705889a67e10228ad65705bd61ee989c8461527e2bfaa26f0488cae03a0c810628196, 0x33a0767dbb31cdf7fecd955b5591a453eea3c96ebc43d8e56fe0456977e32b26164d194b48a5cf4b115e39d4c909b84123362725e0bfe50e)
  ; (0x3b9861b248f7b80d32bc41b8c37ee84fc7f4fe44061e96c804d554b22010af03a77e7a8b70961fd9d92be4b4948db615eca02fcaa931918f, 0x954e16d42b3c967429da0f3607973f414396ce29829d9627933109a9940bd56ff76fd572a16eafc14b2f24f4e21a8ef48a231338a7f4da9f)
  ; (0x6142b17c667e1fd41cc885198db65eea260ade40187ad8d3ef1fd0e5002dd6a26f3555ed27a3140a37482e8c6a36fa3fe2d6da96d66dd1de, 0xa236d62b3e24bd7ff55e2df2ff54c09d0105526e4b589b4cb1a6fa5b5aa4f5232608852c90355de9db116ac08b10af2694e48406d1b9433d)
  ; (0xe3a40a26a1cd7f2b765efdd25c5b4553f5a6c6250a3561f094e6105132ec7f92c3679fc3ff2d10e41e4e88d6e79ac056bf2fe182d4ddc8a8, 0x8bc12b794b085dd6e5d5abb2e4f184b413ad379e66306cf44e095840762c479f550179feed0158fb0d4c950fb8dc2c17cab27309b5d821dd)
  ; (0x89a6fb4acfc8dc299e8cac960ef55358f876e5510608ae7703f11e73d81f29d2a18c35010e7dd68c69d17a31525b9940a6c0d4cb804b5532, 0x602f4f8c4e458df6a9bf1b805c15c29c387d0abbde2834fed98d4245306ab0fd441f1f95b8c3d09a202b21e5112e51b96e5996a406dc7d4a)
  ; (0xa26b8b56eca2a19e96ab05f600d9eed9aa1a406e74d241cd8d6e93e5c6a82354ff5645768260dd36a3054166489b3b1455b5d85b1fa8f846, 0x90f50f5efab32d904f12e394b16577e0ede85b4f4413490cb15143ee33627d0d0a5067dc324415199cf1c4fb6b3c0161ec78321cfd705aef)
  ; (0xa223077b70e1c820af30517a95c8584ed6c156158839ad52421cd9a52e92919fbf8a434e4c6207838a159d0053cf2a5b98c428703cf332d3, 0x2855d2872f998144d4b6c454c5b2d55864e6b44992710a2882d07d19c4facda75a1dc760306514cdc5f154f2a46ac633c7679cfea2fa4871)
  ; (0x8aa7b32d398ec7afb10471ca1db4f3e15045c9ed62a02d595515b4f6a15fec402aa4f665b49253c90bca7a89c000289a5d3d53a24d0572a4, 0xef63b9e0c9611c66ffbb2acbf79c8dd86da80c6ced086f3a0baa7e75d3831c8904c5d67413bc2b6f8683d1f15ab54be98aab97f5033b4abf)
  ; (0x7a227c7a557b815dc2de905e99b7d7f1a8f638c3a34cbf79d9ffb924f28f706ae0f1e674a31009c5a8f82de44bb957b0c534cea651ec5702, 0xb7ca45844fd7ea023341176c226bfa27c3778f80fdf1e65e0012f2911c06bfff82286bfbfc7b6d8fe8284cfe26113c22aaa021618ad269a6)
  ; (0x50dd4e8bbd97bfcf26da9027211d67dc07d92a89db2c18287e6a3486f4e7e6bd7f41cb15684e7c683cee5476c136f2a72ccde1240f9cfee6, 0x2ed7597681c5b9ed4307b6f69c73e5b96703fc0ec89d96583a28c9e8df6d750b6413f22f3f8e4ff4e860c9e0d47239a8e76bad617079415a)
  ; (0x9b57dd8c0d3ae9744a05af47b91067021e442233ebc5d276e588d78ee6535d252f193e87eebeb2c00730d2f330f107d1649294a977a9ba34, 0xf18914424e6608908ea4898a3a6e6525e6d975f144bd188ca0ea28cf26592c23469a3b7e5134c3a58bcefa34ed680c88d19db74e53c72899)
  ; (0x5bc322f9bf4734e168b31842a3663761a52169b3e2112d2a1405f32cafaa440778590170573afbe6783e800eb14f8794d54071b3ec7b0674, 0xed7e9cf28a9f77a86efe24897a865571e5f3d5a2ca6bb615abeb9226e36ef5ef9466e40e954bda989e57066f3d6fea4e6436ef240976c4a0)
  ; (0xb3f6ad5d2e97d96bf1e61ae26d826b889f17524e050cdf9a1bc555efc8175bb410eac81ac77ece718cbf796ba1e3b597e6df10c971f82c68, 0xfe7e35ba2778d33b0e85c61e554fcf50908d48af3e05ed3131e6bce5f1be72179ca90cda1f93b6a3dd7d60e6356be03dde94dcff9f226487)
  ; (0x575e66d26ebf0c8e5d7c5e6a72f11f48bd0e6beba2fc3b97caa853c0f1fb0e0b15af0b37a7005286c0193237f809e1cbc6605418bd0518d1, 0x2e7df4cf30c1c39b0fe4b9504a4fdf88b7347b8ec6daa112338c338298b4efe3fed7d16cfbfdbb81bade53f074f96c9c65099477662eae3d)
  ; (0x626f46a52ea51c8907fd0a03c98e4df392e22756d985c51c8922faac06120781e88e37970705617b45c8f76d1459ff86681e023a6edd31b2, 0xdf0ba9a31cdd0d699e61ce8a05743e7124e786ac809a655f84a973fd47dde686f2a0b644d2dc63c4f0de8c499a288ed18cf8f766a486c8a2)
  ; (0xf8a1159585d3d0014fd2aefbc9aba4c217b06645bb8765998c220d3fd6b48189efb4c5b5a0b7da384aa167df9dad9512a0ca538e400f09b6, 0x1677238823316a0753372e5d1793dca1086208b06c8f8944c1b2522a3d9ec40d035e4048cca7cd0280f71dc08a374e77c1670dfa0aa6f2fa)
  ; (0xbcb05b3f4019070c217430a8562ff78852e116724d3fee4f34bcb36352df14018ee2cd534461d248b27a1df231c74e93f4f2115b8d9c1154, 0x3e2125831b1da53750339680489929b3aa2c0a0017fc1adc7556e143c5db73c8b6ade82b6c3b7a1932f610d0cbf4fc448b60584448cca556)
  ; (0xf11dddf00174e3e52ae6383b73555a3b64521b925500dc700437a58315476a7e093dffd0785fb4190cfb3d5e413d084235cdadda7cb4884e, 0x20580f84b89b494dab115bcba355d14445b614baddfc0b6b49330e1a143c37ffedd56a593e5d9fbeff9f3222321142b05429b4f37c329c46)
  ; (0x7e59cc5f4ebc78288c4906db4d844a583fcda8fd9775987d79b733fca264e6658887c100d51f8ceb85aa1b2a28d59273ad56b897ea22e858, 0xc827a0a874a13ec7a15015fd5283cc810a3bd52f14c7cb045063817d4fc0e7429494bdbe786c0a2e6f16b4f164f657e1b7e3ccb91957aa51)
  ; (0xca518e1222878738deed4f3673244199fc069551cd2b707bc822fc0893aba597db40ac7be58309469f0c991120fc67d38a76270add73e69b, 0x20338d33f16037b49e9fecec65964080fd03ec77f0b542f4e1b4e0042a8b7809b4b77f13810d5db2347857d4aabe49ae9072f1befd9a9277)
  ; (0x70c4acd82203b6ae67399b0d61616b2503125ee8e9dd9124c03da38cde7477c47148d70808bec7748233fea4906e04c4db4adcdae53554b0, 0x16e8d1bcff488d210f45e6b1747d7c3efb1a90169cb65a2d492ba2ddb58f41153a15e19553153988e4ad34775031ac7f699683916d31dae8)
  ; (0x466ecef32c82563c9f3da2719a10afdf93a77e221eeea67e9d1ae8e3440e40a137602b634392ef3c3eac2838ccbf4bf454c7474f31ab2e0b, 0xaa90d5fe86fa998acd77721cc31530078e35955ae477b42a16bbb5f91429cdf4b1bccbbc735f2a425c2ca1332d9b1c7d981061c19f9c432f)
  ; (0x8e26b22caa175bc371a4a3aa30f0639da4fffab032bbbb752ef16d0b74a18ec3cab02ee4b00dc8ea77e8b9942ed3f2925ffea7382c59b3d4, 0x9edefd63d7d99c24fc87edd48699a7577d3fa49ddd1504e9768a2807946183d90b25b2931d2f4479f0157cceea625a794c94e41567e2b62e)
  ; (0xcb30b2dfe34ff4796b84fd21c04f0bef8e5346c6db064d57115bcf46aa247db3e334ff4842aac3968483295148f07612f834dd6c87fc13a6, 0x6bcb8351a68ad287fb17361e9926d7d8d0a393aedbb45187a91f5bc4a1024a71e4e73dec0ec43caa8a1f57f4aac8c7ec6ae7b762a9de4308)
  ; (0x7ad7d58fc74676a1a30d24fc5b87701a03c018af46437e0da79c545762817825c09866c9cecc5ffe844801908f4091923272401b6541dfcd, 0xf37ff5219708eb4e93ce05d2cb7df0b974527c693e5fe4478c0742c3da01df4ff838a69802a15e44b93d299b1445d128e929607a590f2730)
  ; (0x5df918d123d08c66f7770fe6bb3279cbd26495c99862a3e0983efd067459c17790428c4cdf9fe320af14124e67446613d99354e26d1cec2f, 0x590b617745eb3750c8791094cb43d3a5225d02860cebf02af0784ca4b4d6d35136366920876e32f7996d7e149e0cb0cf4aca4b7d8d788f2c)
  ; (0x58d7a19ca8d5a47f0c4b9b6cb3f8193cdaad1398b333ef72ff9d531ad766c07e83b7db74ba9711360cc911651952ba5899c0dcd94716bacb, 0x20348fd73bf81b9204f381c74a227d0fb9cad2a68f534a89fc58c406cce1d41a7057afb32bb3a3c656d5dd9402b460e5b96ef80496443a81)
  ; (0xb5af09f651b9951555ccbff2898505eb0ecfd787d4c108cf573fe2e70193fd8848e04d26556642a5a761e0069a5c36f7f40508b340f0b450, 0x8bef69332110fe805188365a80e032b6fadd9a0c1e300ff0e09b75b0eabbf202a41b3140fb7166dd76fad6d98bf57c669a167d72ce1134be)
  ; (0x6db067256e1fcc39ba40cc80583aa3f867ea71f65f271b7fe87195f317ab8d12dd895b7b3f3ab0415644fac114b2d16eaa637802fbef47d4, 0x2def1af9a4c5873e40c022b8e54933a98da27673f6b4a753536fe0a887c8aea7a099ea18032ed732b126c857415c74bd464feab4e06662a8)
  ; (0xd6b9bee2281c2ef04ceba825b7f4e689d03c2cbf3769d251bf1ff23542692c0519d56c490397d74723a436c136158fc65810e68a07089522, 0x904aeb1a594a0142477fec63b98299aee2f2d6ae43f5fb82dab922e231f717f5d6800f277615f0f18a5a351bf28d1d1be8c52ef3fe0043ab)
  ; (0xbb642f340288ef6ab8a4e9f5c546a17cf94381ee526d565e74ea492ba8cdd12237fc4a071e5bc7dae13305562dee9c2a707f968805db0ef9, 0xed8077b806e0f95642cfaeaca6ce89385395e81b4a9542e1aa1be548e264883c506b8a73a841a74ae46c43696e3bb906f464e59215df5c2d)
  ; (0xa9dbca2786131d7a0d1bfbb513fb212d65ae853e76b5f8780da894288237546a17f78255de0ad15cd0d5da82e34a8853fee67f0b5d5e3205, 0xa72026829d065fceffcb83563aaed42ea31d6b399e9038e41851d4db35ce59fe57d5f68e426f9113c42760d432bc6a2b42ba56291665b744)
  ; (0xc0167dd5b321afcbcb11d7e2334f0c6f8a550af102512bef37e47882ee5737ae480bb8be09e18584d292a3682e829eb4a73fffb5f3c1ef96, 0xb4495efb3bb72e7f8a557ee3d65acba55f40d0087d2ff7ff0a2fbc5823b60273deae7ed545f1f617d8a1af0f6640e9c8dee589b0249f60c0)
  ; (0xfcb17ad9827e04824f7cedbb87047f3f6ed5b435d32a7c6fa432687bed314b77ddbe87da4044e10e05b70fd2359be63da146006085a5ecfe, 0x2ddad0938a1fe74a5d47b125e3cf27d748b73014f2bbb880f03d024c8aecb43e562bfeaf3e82cb286639bb8de6ccf462e4b7e5e698d6a7eb)
  ; (0xc58677317660c0bd26a130a3cf706dc30fc8a176998f72a4776593fa69bd45ef044a19107c5dedb5120781a8e67010946dc3e97493560cec, 0xd58579e4e9ca28de214d87daa9dd1dd3643ca84a9a18d66ced4698f831405b20b7b710737b1e55f4696a42a9e1ec3fd2c490db6fe01db089)
  ; (0xe6cf543d20eff2febcd0071cb6f9b44eb34d133e17493e6ac39fef9adcc17489cd835b0bb6043b8b61e80ec8b289e584fd1c776c47e13597, 0x38da3d777f66421695790cd7a2cdefa177c6711e2fdf8dd108d939c429160a20993434769f985cb4ea539b06c9dd35cc12f265cad0a004c7)
  ; (0x6930bb58b43b2c29c60dfed565d0f1e0afeb8b3a41f8d229c3d1949cdb20b5273d13879341be04abe28ec26a36dbfdabc39bfcfd96307b74, 0x215b73867bf9b272319e9f06ee987f130a8f96f4a41725641c1cece770a66268bd35e50c62f6451f32ccdb981431f671891d76527fc0718f)
  ; (0x4cfb60aaee375f79a9ea8e0eaf82370dcbaebe09dc4a84abdea956bbdd9e039c23b3f264222f7c14fac384b79f2fc7c80d5d9a4a1ec0ac6f, 0xfdc780a3bac1465c5f499ecb88d44f8923e63bace30066122ddd67912f52380b3117b1481b885c1bb083a3ba5cf43f305b6a10dbf9106827)
  ; (0xd9d3d8e9a01287b843cd6cdf7275575fa6f5251e92c7c19d3f5aed28a5570b00ae73af7dac5c0e0d38a6b2dcf08b77a0f109c931ed4fab5b, 0x6ce2495a45cb5d1a16c34edd32a3dbf636d7a03699ba1ba4d0b07078eaa67d5c4b18747792650a986057c62b99ffe464b0f94e356b3c370b)
  ; (0xeea45df60beedf489af5ae0c0c43bb372ea8dc421de2a947e6c46871ca95229fb6776b18af23344e39fb8ecabf9a8a564ec455cb285a0420, 0x2b5cfc1b448a460543e30f5e715882f79c16cf6c1d3ecddb5a8a9810523b2ba7e80b96562bc9199d4aa3f1ff8b6bcc27d63beaff7b013a58)
  ; (0x1c2285ef53228aa36cf94b618c1c42c9208bb2c947a950e433ed497299ee5cb0250892178ca95da872dc7f43aa416a1ef6eaa642deaa77c3, 0x451b0d9615d8f02d012af362cf3e2bc6089944e6a07b70b6516f8482c224baa28f4747389fdc1b887e9001a48a8154b149b3650e65a99794)
  ; (0xf89d8edf53b613343a87f521fe825ab5b355d171b932b8de68b14e373af48f3e1f69cbe0315a3250c75e3c5db6df31a9b2fb668b5f15481, 0xd416491e80edad79dc75dae29e71e04823d95494071176677deb091d1e58f126a27389b476b527f01834cf188f9d69ab09b2df2f8c99a84c)
  ; (0x68756517f85353cfee6e439fc71383a4f4182e1414959107f6df5ee83528ebb6fd8717e4b8b121af3c0e1d1421e4b450a22a0c638e0e909e, 0x4d1619e5814ba55faa8a3b8b3ecde625bcf613c8ab6c5ef55ccbbfdfe20d652947e04f9f284fb460f43b055ab60e396795ec0b81055ca920)
  ; (0x2b2c83e384ab8b3009096b42e1db82585ac9dd8ca61847ce9576fa19ce7e7116f65b24cd2669b43014c4ce62af630cd42ad7c4d9aa684441, 0xcfaad4a61ac2db41775d13df8c2802974700f3715904e8c1a1e400bf211e122a3e8cbc5701f9fdb1d6169de42187374b40e171ffcb4e9a6e)
  ; (0x46146fce408eec1168ac2efef7338f8c653a60f2e9f33ff2d3749384c7a4dfc3b7b6220ec795fb8e91eaff6c2df471a536341b4d7dc0f49, 0xe367c6d1dec59cfa2f7f45806c1ece51d60b926ce9be0ded27c3d7260a82acbd5a41ddee07d8dfc4aacfe032d6136b85709b39ac0308b0c3)
  ; (0xd3fbe316c6c49f4c896aa26781ad1d9f4e557ca8ee88be135b8dfaf9a93f71c6d65bb9aa0ededa16a4d1620542a5abdf9705910484de9428, 0xa0b804c8284c35cceca8a73a81e9a7ba596b7ef2c04e07e6eac0657d5ccc54c50ab1f3e3080b8385450dbb6d645badff1e088d8522c34c3d)
  ; (0x2f655428e36584c6033d545af340fd7ff266fb01aa39d41e08a0041695c39ce939dad1956b9afc4628d00fa32e32b4f03ad4e06f5c1cc4d3, 0x361ca6eb38b142e590e09886397627c6c38d6229aa369d65a07eea742ad4a5277f6094c6a6788d452d0f7236ffcda8147414cfb1f8dff960)
  ; (0xe97de1932930dc289fcc249a1e044cf8999cfba3fc49eff5e8a5cad5da4d714cc5b274d874de917a9e4157c52f9c2a904d6fe7865d22c0, 0xe8c105b6844ffda648407cbdb2e26dbf946ac635afa278a38927bb82103072dfaacc7daf4a95e7c12f5522e5d4c4cfe76f4893a41d6de601)
  ; (0x14dc72a1a7bc90d82c08393e97f2dc29c1db2d840d46283fca1d7fd44ad15f27e94e781790181567537a97dadb96e9e2d8d350c044eed653, 0x7b6223e8e50d0cf6cc6276c5359844087e97071dd64c0aa49f04d15c9174398393795b2aa1c4011173afe1dbd4d71ba83ab139b8f1644e58)
  ; (0xee949a22dbabec780837f546cc953f5c461513d3d723e4408d6f2d53f91a37c6ece54c951e9bde8d4e49d92b40723991cb994a9a22ef32a0, 0x98f859849c512a7dd3e9649c7979873c8927d0b38a9095c363609ef703785fd55835554abd1159528752347391df34e6540e0f18f5692c24)
  ; (0xf78bd68bd87bb98a35c403c322df9271cb0f62932240ac2de3865a542eac765cdfe185162f015cc04647da57d4a3088fb37d2e0f1bd124fa, 0xde4b7e3a509e653681504379e97f6845cdb7e2b1b12f0787e845e411e889b2d6ad64c9e079b3f3f24ce6f28bccb061f4288320010fa892a0)
  ; (0x33b23c0f28657ba2c020d9e98c357f1fb31ce2e0e0131bcb392ab236e5d17768e6c5b75df402ac941606b669d71d3f4fad6803413dfeb7ef, 0xe0bb919134dc9f0fa0b97ac3619878081d666f2a0afef840a025b987c60d25faa5f8a7127cea331e4e0410d4867b4357b3ed14e739cf7879)
  ; (0xf45819873db4cabadf77a07f8959a3d56784843a6c44f781784393427d68bec372cddf70f2bc21c95f020fdbfdf0f79a37c1d2461cc32eae, 0xccd57885b2e58d3b4e370be407c640fcaabc9418734e8e594b00466fabac85c159b5f5404e32e21e535c2f529d1b84c1e7e8eaaf3d54f805)
  ; (0xe1a75f00a5c0ef9e7fb49a7cbfec6bb9e9f2cf239ad88d74da3522d537dde44cfeaceb9e3fc0580d9f04a716ecbc50ca30386dbc00eac2d8, 0xf62c4f6724e71323b2dc139d84a21b37d9c54d8f2b0f4fe9a9ef4614e957ef052e20fa7046380d3fb3110ec6df5c8a79b36e434e7fb9229d)
  ; (0x432a6175e8e1e7dd273ce8a9a834c84ce0787ebc0713707e1416ce53c2e7a6edd5c5dffa4353b0d3d3b2b1ee285656feac0e82a1a3dcbc90, 0xecdecf00b20d45c847acc1bc19b3479f25e6fc13a73420507eac75271537b22a19a068666560edb27169c899dd56534516a359670bd0064a)
  ; (0x1ba91cea792cad7ef2d29be5c48620ef7d0b5052f09754efefe0dd0ed87aa80d549cfd7f2fb977bae88e276ce65fb6ab2ce9a2188e4544f4, 0x15afefc7a7b122652322dd52ca1b2b753f43d138f7a46aea6b6183bdb1b527156f4a285938586a0a22670ccf90481fe80ffb96f846c037af)
  ; (0x491164ce09f961477aaff4dc9a7488bc769c4c7cd135c7d5b515b7194e2168e86141927c05435238e219a5efadc4839429a2a984e1ada3cc, 0xfc00698fcfa3cd73aa3770aa0ad8ec2a52686595e0ced0ec92e2656bca01841da38c210852951aed42babfc5028f1c5d562eff6be23bce12)
  ; (0xf609cb627e771fcbac3a2a6a9dfff639003bdf8a0639b9164877ce34b411f3d9d8b29a4535305d18c0196487b0734ce8f87ffa3130592b75, 0x169b84f531657748520c8b40f164623170a947889f4dd8e826b8cc042db7d2a7fa3e4cf41b73c654a199ede60640164d1f415011f195757a)
  ; (0xfc13f9938f73c9509b32d2f2cf1069948bd12df92daa272c5c864f25141ec7ac992130b1794f29ac2529230721e6714ce0a27f2165e4e243, 0x6819c084e103b96923f80587ca75f00ec704f3e76b324263ffedd61c7ccfcb99d8cee18f15dcf91ddfd0ec3b8a524f4566a00e10cb349f7f)
  ; (0x397085826539af53cd3183f4d289de9433c88eebd292ff208ea4a85c1aecb841585884ea7dd4150ce77fdace1c6da685976f241004acea57, 0x6757eb28a37afc66937841750cf6f24533a74dd571b6f7dcf388642b8fc4b0ad5e8a6694336652f6e61dc82ac03d776384b57599b827d87)
  ; (0x61cf7d6c6f2f10143bb999a00e58c8a3941d85d23a3a1e79bef6940f0f364ac0e926984e59dbf85f3be388a5e0c7c8c97d0e70d53c133995, 0xff47d0ea0f3fd315393426749c58f6302821567090246befd89a4628c9fff8e6afd8fcce97b9daab7bcdcfd0df259d773f979c99485150fe)
  ; (0xd45d890495a1ab01d020832c77f3c6b878fed604d32993b96679b79b8ae9a0c0205ed8e45e6fc4068e16fa951338a6cea25b4668fa9109ee, 0x1214e327d2c521233771dc056871dff03104219cb73fccb86b77e2d545cee23b3e72bcfd53212674f74b961f9a661f8f7a99348fa29d2030)
  ; (0xc22b83dd33e7d4fa88808fbe0f1ac60931f5c90cb53d97093eb54cc64bf5492c0024d26fb6ca9375e0c31bf2fc39eb601ef235d9d4106140, 0x7ed56b0c4c99e0eaec3a98914a7e8849189c6eb29550b66c79ef426a300de2816672700622b7e39b96b652c3f0a93723df9cfec53c0abbf5)
  ; (0xa8e5ed61450a2a0450df26827a51bd81b7e176cd759b3e0546c521afdcbda7ddc49e3dc3a502dcdd1609d7a13ba1fcd89c6007d2031cc102, 0x210fa3f7092bd9af08699cec64e8cba07aec88b55f72ce005b3b3c22e107d77c3dc9895f6d37b79fa93d42f68a797c25c72934ec2a926c19)
  ; (0x2def4760ce96526923fae621250864429ee14511cdce85e345552b185ced17c2233299de46ad4fd01078e1ee67b12b152196e0ecb9fae3e0, 0x6dd7ba58f5aaf79f7abfde13f7232f85b2274e11c7c1f714c2776a6596eb70b3c2527e1fdb8d2b23be1e4bf9b680d73f85a14b593af1e16)
  ; (0x8b5959aa9877fc3c5da9d8dd3c4ea736f3ba384d480a59863b3adfd67260fd5eb24fe0c92e4bd0c592b68bc8e70c1b9058ee1887349cc0c0, 0x22234556c1f248cc79983b7aeed53799ad638885ba0fab9578aafc71470e740f638b679a8124a120e87045e3575e9781ca8f2b8ce0387753)
  ; (0x5fb40491fa99090fd32cbc17e166e7bb20e2f7aa20d3260331d5c61ab41617b37db605307fdd0b6a1dedd6591a134b55b7654619bec8f381, 0x9f195f8c15b224eb429b071a914cd827145d63003a35509c8af65d0b8e95f7c8ac08428d50c6c2d343f52bd680a07980cb21306ccb5fa70f)
  ; (0x123010ba9b64ff492a654daba6485ed8c8ce74bd3e6f172ad4f48750f201db46ac23cb1b06e91d43a8fda34981653100177926403687e557, 0xd07b744d9bb0f83cba6fe1212efa555dff59f5eafd13edffd6aaf12ab9cbfdc49512a49622e0b0aebe7c3a3b0b0398378aa83125b6e89f93)
  ; (0x97b06f335cbb1443ffabd31ac33a30be7e511a9c7160c5a7404d72ad14d025a382b8979347395de8f950f3080fc13ff36d45732b09a48920, 0x3c060520a83556c1cd133e65953c674fffdc5b03bb7a2b2f55ad8c63316dcd1045910b97196eee8b7c9d5fed090aacf81ee4ff5c57740de9)
  ; (0x66276e2b8ce34c2143061728dd3a0acf23a3f0deedc906800d5cff56feece9616f20cc9a65abe90a42af8cdb64363a723cd018e1cc2d850e, 0xa6b11418a72a7dd3f4ed9e69bd7f1a1eb2f901cc98ff837a930f9e012f5aabcf5282a4330f41e4aab669db448515b1778b23700dc73cc9c7)
  ; (0xf2f415c3aabd6918a6340a2a6a51a600a79bcdf748cab4d67ad23acffd5c5639a96908ebcb16e720e8ebb0ab4a5ae499da8317c34d6a8442, 0xb9f34e893770a428d23b55619e848f83bd6aa6291cf8283e1b2e1cfc4e27eb5c957684fad1ea9f1f7655b6ea5602e24415db38a4f747258a)
  ; (0xd5a324e67264cd54b4528ea4db6a06e1c0972c1d18ac84aea2bc866a0344575b7105f69184777d81ec1bac36abe4692e1e03eccd225c9218, 0xbbcb9f39df8b97143d2bcdc91dd9bd9836da08d9fb9a20ffb91779b61841c6c2cc66f7f86e6d241ab1954f1e123d4ffa0e4b4682b3b570b3)
  ; (0xa5923ad06a421d471802b3067eb277b69c8e36afee95d30a247ca8cd2f4fb00481e2b7451d29ebd137818406001fcf08c45546e97acede15, 0x2037a5e1b954a894821a41b9cf1a4820f609cad13f6ae2da3434ac13caaf13826390b1d1735bbdeef0a0f3c19445d1866e09fa32e02bff5f)
  ; (0x39482dc0668a29d43369ebd43872e3d0e7d4ed252c5dc4d1024e6691534c292bb5b4e4a034f55544d60a1b8bcf72540fe30872f6dbcd763, 0x35e507dafea39654e9a5ed6d37a21a780a428bcb6f3aee1ff05ea5a964ee81420e66d79d27a8cfd6d9424f16928cdb75cbf458565cb38faf)
  ; (0x1b43d643286705e385ca59599d624900b5ac27aa6a76a7f79c37a2daed25224e37ac2f67fa1c57136c641d8a83608e3e3cdf8b91bc0e82f6, 0x2e13d12273b7346a7dd864407b76bbb0b2757ded465ac51c454f91c6dd33632871fb312e05de68fef99d6c645d839cc15923b49d30387a57)
  ; (0xa1d53965391c8da10adc0178c9692524e653fc5d7cf513b9785bf620815502b66048aa78afdfa22b390fac73f2a7b860a61bb84377515fb1, 0xf62f45a1ccb07c598250b52812996b715c2187637debe08c71279087030beb5f42400d694442897d0a1a1f97d67710e1e09fccc5a8bcc45)
  ; (0x4f2a4a7c475e87440acd5b392002d303b4a384b3756d2e46b6aaad345f84c7931598061796372adbd465fdecff45837dc48404941b765479, 0xb92775401be61172eb440b9723c1d65c62c3e987115a819eea84ed59de2fee74ec59bec074cb3f139db42d821c29c2f050038e1da5606fc2)
  ; (0xf4701578eacd51039edddc9ae6a40f39de4c9a3f24ac78b054337188430afe333b3934edef39a8e2de1e00846bef1f3ce844e4a51d0fb585, 0x7b1c0f774f024cd30c89f36e0267b5af0fbe1122a9fdb51113ea28c6f974245887e066dddd10c9d239d8c8a40f4b19a8b11e396949a2f31a)
  ; (0xcaccea9dc788c4104881183e0ac5fab38f885b552268911c98e924a4e547a19d496d43843d3d9d676f500ff3f27957a75c3089b3e73c92ac, 0xab13645849b909b21194e9c09a151e4ea8f9232b262acdb978610632f589a0e18261005302ec587d78b1a7b3992b3a6cf1fbe2e95e3c6aad)
  ; (0xc2fef736dcf5422980e5a9073a0a052125f3cb024e62744decd1e561f8189542b9fbc54022a017757ac9dc4a35fd4c3f3d519133f6ac573c, 0x148a0a51943f79cd528a5be279fef598b171f6e9b870867705db7ecd65a24d4799a89655ae048f79cfb01634163f684d408a6f2e306e4353)
  ; (0xd9829bbf1b3471462da80ea2e4bad3048a8df02572cd72f71e10662b4e0a0dda81af45ebcd0121de7fc25eb23ed573f23296efc00f635bb, 0x3349bae4e67531b1d6007a892dfcfc65c8739f3692d11fed00fa6731d9249ef953e412c23309808d3d79f5489cceaad12dba15cd030b0669)
  ; (0x551c35eaa1168429269ed3c58ebe449903253f1417b2c59af54e76d0b99a8caf28a587a8bc856ff271d3dc0c38873ac7abe91f795af16155, 0x662a402c293533c1758525c39419e40a4a2f97292fd1927b269d11287f01c55b4d28971992b269d1dc19e8437e7daeec71966530783e2b39)
  ; (0x5b806ef6708135c98acd5844d679eb29c7fa58b720c98faac6917afc2604007ed0167dde56bc75bd9d85e0eb5ce28359929def883a6d174c, 0x5d417b84b373aa144ee69baeee097f1ae6bcb16332c7a36da67ada9a1986f98a45cea56176fabd1f08eb710a9b3631e6a67198327baf6785)
  ; (0x9c2a532fcb8bf0af728e9207dec7f6cd7dc2a9d460271c30f3c28ce0ad999a7b9ddfb5e58bd521713fc9349ed29297d66192e5d6df3a71c1, 0xad55e25268ef8a4d7c95f9535b52a9d5b0826d3d12658f19788e07a279416606bb8da2ddfc6581795c9373b45be7ab8ea8d70218468bf486)
  ; (0xedd1eea5b50d1d8918c6c8b8108fd9281ebb36a0ba4b57455849698a06f882b07aaa5c8340bc7c97fc74485ecc5167e5f394a9b0ba2bc326, 0xf61585e64a5b4a00ad30784bb49a06a02b9e71e3d485fc498eeecef2b09a92a4af8ced02a54357ced3e20e5a8232446ad094d737d2a25f50)
  ; (0x69d53d2f3f1bd6aff3f80a735084134889162489e8490aa422339834eccfbe3f2222a4f65e203dbc97258597bd666a550280072face525f4, 0xf3034dc44c090ad5cb305edd42e5a8c8cb8b42ac7cb64974c607cf201edda523890ad4751425ed29b08d359084c1173848b123ffc813341a)
  ; (0xec6faf021b669b4f53f5ee3373dcfdd856955adf1580f137a60182ecbbc1d177102fa203db2385c5f62341f41c9add2eed76cb78e325331b, 0x86e32e90690eab2e6edbd423118aaf0c588bc404c8f4c66545e6c5fc86c540c02f99ee0f48f5824a22c810d3cd9f2d979c7d4e9830b86081)
  ; (0xb33577e63383ed940b77b3d35aeb13c89ff772ebf4e74be3e47a25baa34333cd3b8c6b00fb9a48ddba4c6c4e6250bc549ff1c7b3336f9064, 0xaecb4bc4cc2301c456cbe26c2e83efa90f9f058362cf9dbd669192de22526ae629f72717e261e9baf51ec94109b7c8e36ab9bd2180b8d62a)
  ; (0xfc3e09fec6cd34eed6b46fe85e5e2c1e87bdea0b5aba32dff1f9d14ea9937b0be7eff1decd603b4b25878db60bf17abba96696dd5592c86b, 0xb3b396fb86fb74420ddb68a18bcadaf2648fecde77ff3956ee1a0a5ef09ed4a278d708df68f8f816f63c68ba125d650e996f011f9ccb3e75)
  ; (0x60aff38e329a70c2d7b41f4aff7e17aaadd4b8ede304eed167db94f533f53f37f303be24b7dd96f2eeaebb5d71910273ffe123500abda2b9, 0x7bffc1fcad5a0bceb7193caa152e9026ca798d9d591c0b33973137b8230c946d9d2e9b17a230d97c8499806cc3c54f0878868dfa1c61871f)
  ; (0x4b2a8a4170065f079b2a99216aae6bba5aebf0c1685623dd09f95c851005c652beb1ded96d5ab7e664f96223dbe8fa68c22a6dfcf51fbdc1, 0xa11fa323ab6ff6e2dad7cc3c5c3c7ac5ba06c0265b65bba4b098262c74813b5605822a10e1e2d2d84c78568be10b34af7738230e2e8dbd1a)
  ; (0xa84fca62fef108863f01ba0d8a46b853d319e19aad5853e28f3ae4493df83f91dda80a2f1071bc3597d0a49809576460181d12656dfbfa6f, 0x723998c51c682128082423bf96c8420f87f07ae8116be758205dc7a26a63045466cddb781f841b18575c40a03dcc0727bfbe4c0b7fb84de9)
  ; (0xb107900ab824522d3a49385d79be530086a938589e6d64bf065628c143054aa45156d339c94ea065856d82ecbd05ff9e138ab64181f5863, 0x8dac8e4e5baa317a15be788dd1e6d67f476d581b0336e5724d99dbbfa8e5fa89107378199685da10bb73698206e35551d7b0d80fbca387b5)
  ; (0x6f644cbf8072a9d7bd08e2243d53ef7dbab7534f535683ff43493697cff8f15523cbda23c78381a729fb6c354d8798cd5c70a5f6c1f241d1, 0xe9b5ae81b2b6db116f3ce442b3f97597edeb41107014b5e50dfe6ee80e35967fedb156692b652d9798afa97f41723af04dac960f9b22db63)
  ; (0x28a72d60d88e00609e61c8384a181fc748bb9868810d4fc1c0e26ac62202b76358fbe3876f10c3bc846c7046bb087d2f14ca08731423e08f, 0xce50e8a672b87554e087a8744ae176256240e53955ef9ec80ddbb75f14b1145b16a99b53989e4698fe3e0367919b3526a41332a3178c6e2f)
  ; (0xbd5305f0036e75d8aac488a29b22e610fd0b2775daf18d0071555c685cc25ff40c1588e3ffc94f40e3380c2574f02d3d8480e706907fd94d, 0x8a914028eda4efd6729b81fafb1d6288943c75e726e46ff04d3487bef5555dd69ade2e6d32ac4d497edbc028bc9506b26d015bca3c474a41)
  ; (0x4fea913fafcffcb3657211ddc2bdf4d97f75e1249119cad82cc20545d639b1511d1974a9abde28ca52f1acbe85c16fc73f818af0e8b44be2, 0x99fa937a2dc6fb964787374938de61ff2c0dc2dc1690dc5a83507c49668f5d5b6d37f21ccf0a7ad54ab5e6003c013886ff24010fe0010c90)
  ; (0x1f5593a620471969900197dfa33de66f62bf0301a63b53a549dab647524ee59813aabdd9d876a91a47e05331948fc0e499712cfc982289a8, 0x1e620b8f3a4e1c8d5c7a4c0cb682cb6e6dce6ca9a0e6f539aec08d590ac66723cfb9280507017c261ad786d4af871453c9c249dd58e29f26)
  ; (0xf903d37923d9831d69cb97c650b25d862f3160947ff9bf595e97b53b56f7ea03223e4d4df414eaf595d94cee65250b9e03161d66ec4bd38d, 0x977b45653d87fd5d0d7e7195400b6e0d0e4d86dd0db8946d58314ce931863cf362cf43354a3e4119d2c6cf9c667496e84f49b5476b786836)
  ; (0x974a8399a2437a0c182a13a68351d4628710f069a6799b3fbe53184d97109b663632c9933d432f7ebe4c946559c7b2642f4c88b2ba29629c, 0xd2f66391a457e8810440c55365beee0fe4dde84ae2f922115ddffb0fcc3523f2b1da15d85a60b08f4c3701b98b6d9c424b29f19972a70278)
  ; (0x7eb85bbdf7aa504537f9ea9dee05372fde610f3fb2a5d1f6591f6cbb8a03b3f70df4bd7dedd63a5cede892a7545abdfc615e6879fe2ddd05, 0x626720deb405ef8d314509b84763adb6cf005860dd2aa748d0270a5475533400c55bdea246e4c6fedf2d53c8dcae7bdb6b963edf8e8c504d)
  ; (0x35c0e081e02e1ac10a2ee1b8153b11b24aedbe47b12e9c16c19e2f736c64559ba60d557b3cd019c02eef6d2ffe1a83ab336c1300cfc7b5a7, 0x57aadc3b8c0577e4e5a59231142bf254da417bac1378a64a1be2f8f6cd88adb85aabdac240f825ee03f4ea93b6f41a290a9f470c1dd6f16)
  ; (0x8a73e3450e20e64f3ed0a22287dc783cbdc5962ac0884f173cba2fcf7a7712631e440838fc997887055b525b3b9577144b1672757bac60e3, 0xd6499cccaec313de47bbd87528a98b5a9e8783f13c068523d5b37bf4ed478d0cf363cb0ea08e9aa13ed68997d8d0d58ee6e7a1cd0d764583)
  ; (0xd323dc358c33cfaa0c068c15fbde4fb9d1056d28ebc7fd77c99041207e27d7bff4a5de770650a82a21713380737af725c528d358cf4c67be, 0x438a58a8679339ee4499c7fba19e3042782fc7135e2406464889da8afa3e594836ce5cc4d074d4031487e5eb31bb6433861f3a3e04748f3)
  ; (0xabf88e71474649899f899738882b8aae41af3c733e461eafb8aac33ab3a939e04ec0a0c95d8dee97a6f999c6a830192f29725471e074477e, 0x53ccfa6edf5d898d9c48a80f10d4a6aa489eda1375385e72bf3fcf5f7784cf74cf8c762f1db850073f65a6d516c15f98db05591eb9659bc1)
  ; (0xcaed594c8db9c1b42f9186ed565b7bea09b67e256f97dd8edf9dc2f0b0da51f7b04a0573b958ef4844126768cf9b9ee71a1e0fb26860ec0f, 0x5db9afe83493bd9bce0253a18668a0b77b1f436b198a08733a2141c1f6a1c8682130b85fe946fdf07e4d5ba5d35c3f7f8d01d34183df452)
  ; (0xb1ab095dbfd88e9a6e11c20ca4a2e9ca30eddf8b9e76b84ccf5d17f998d78f41d4be8bc366b357c4c62bc761f13184edddaf870f21cd2abf, 0x6b2efae4a18924227ba53558968aa4ac832cdad443329847b414fe6b182035cad68ceebd627ed68b7382b41f86fd172e1777d78ab0b4e888)
  ; (0x3b5662cfa47beba6a5db13b4d50fdbdb2575e30d8e9c865540b4efe217316600717f68b006dfe707582489b6e067f5e64854781bbe09859d, 0xa4adf6f3bf742b1b83091c4cda275f6262fef6685219e9ac6eb165411a7b3c5b5ed7a419eae96c52965e790517b550a7dc9d4091f89d4a59)
  ; (0xe042bb83985fbffa80e570c7cb45d68fa77c94350a126d559474ada0efa0d3f90fcb30a4de79a3d714d03026f5085924228cc2365a5100e7, 0x91b4cc7baf99ce58e806a8babb377c695569e7ca372124d5fdfd98969ca5a89dcdbe896b8197b73f95f7eace234cf055d751c80f1fe13dba)
  ; (0xc34244aa9c0a1a0c5228c8b55aa162d8e06e4a40f8d57f85cf3dd7aaadf870f4bb069fe1d81f8d8998af0b79c1c21a706f24684ae182401a, 0xd747074e6178a495b756ebf4c28a6d6cfff2baa272ea0a49a751a6a020eda5b12aaaa6aa5512047c690ca560533de23ab7b5c6cf968f544e)
  ; (0xc1662c225d5b113a2b68b253892a295390c13194f708a4ebd49954a7638acc03b7e3a8435551c8a4a3ef9cfe46d44dc158ab9ffe79e157e3, 0x5f479a377ce51e3562f247578a99495af40002122ff780f97bea72e166616312f322086c6314bc67e254ffaf6d3cc327c9cfba0723a5d2bb)
  ; (0x36413158e41692ba840555a0c2c9d6ea5535ea0beffa9735a932cd5356f152a41cbf3053d538b2a98327773c1e5fa6615ce0a0bf17a3616a, 0xa8a54a4b0956a1bc18a5681a3792fa92a53320269da1fe28aef9c54c42470e7186ee0bf2d4466e45d2a67e48a06f7953c5cf53fb12c90ff7)
  ; (0x55a878fe6145adb3051a3deee7b20c390150114904d1c42d42dab6bb6d94b125d09b955de1defe995a067b76fc1377b2e095be8538700a56, 0x7030b94096e89044d90559200f482babc60ccef5ccb7589bb04ef306f7013bbcfb97ce85f97a353f3d8cbd6e1b91f68857345df770fc538d)
  ; (0x3017f5540c163e2f6a37dda75c5da5e53f74e73cb2633415fc21c6780079dc11d38df2ee986af9e6c561dcc1856294f6ea57ad972f7864cf, 0x562d2bb505937c6234caedc5f1ece89cb867eea04d5844389a15c292824382d6830ab3c51b4c7a40da0ebf63881613c474aab13fd7441124)
  ; (0x921d241fb0fd39c5a5f06a6b95c8256385057486401cbb3740277cc2144402c3da39376f7fa6e0df8d16f82c022c3f87c96a43bb87478df1, 0x6de848a595e23b074f8a0868470341a4883ae3a83c28d42a45d3c0aa0576afb63112d1d0cdb2aeb22b6071319475031268ccbac43db9e1a9)
  ; (0x7d6bd8b8a4e9c22ad0ede26ccae20a3f5778f1827482c8912c046d512db1fb90a8c5cd399009ff73417aa75417580f3a6291a58841a82a12, 0x101d9df9e80226a0fdf03d9071622f225315b8649d029027b59eb5c923836ce4df12c931e7be25f6c334f8658b996ac9bbaa0d7974b3de44)
  ; (0xa1e21f16a688f36f27bbf602bec5734e0032feaf67147a3318504653a986dc68b8146beaf8d40c3814e2d2d0882f0222a7f12037a9a90835, 0xf881c0f891b57cfc5a71166816972557c093c39b73024059db5bb40118603827d7a286871cebacfd2af14dbaddbe70b4125a8eeab73c4ae5)
  ; (0x2187b0ae7af394eb45298561c5a561fd4aba98e4179b0111aea71367bf8f7bd653701bd914126fc1ee55aa23a8632c9ec117806dd2a67d36, 0xaeef1d2ec89680dccc9d64e23d738539d23746d703d7cf88d6f0d95b1100be7286fb58414d37602ddb04061760907da7b471f12db1616dde)
  ; (0xd2640eb50dd706430a3766d63dc571149ef43f1dc8dc0731f69488737d662e2489e5eb506c1674898e35bcca27acfbd320eb1c679839b52, 0xd7cdd8f5be25311d68374755d99a0f72b1dcee7788a42f63504cad8ca7b9447608aaba55c86a8aafbabc1b4806588c604f2b561493b2675b)
  ; (0xe6e50302cc4369675f2c7967d2a7252986a686095c1bac9c9fdc3246b9b40dbc819f99637c500b37cc54696566f8f269bf8bf290babf040f, 0xf6733ddd7a398f1e9694f77913851b34665c9a31ec55e4de23767cec7c62cb5695dbe9ca25c16e22a2d9c4d1c77ecd11adae094d35aa50e0)
  ; (0x4ea7f5cfd7db7c8894109cfdb7eb41f1e038a79948e546f8bbc1da59e15b282cf8515b072467a4f2ae014a40cd44d6577269ad37f0575075, 0x8d5c17ab671745eb5880d7d29e1dbece18addf8caf087117b2cd801cebd299518196525a1a1fd4ae561c9e92c06f531a89b7d445860d70a3)
  ; (0x1983eac4d0ecfa4c45a3405b0806bb47d06b46a1c03abde78804244d3875e4a20d9935651e0fcac43cd3f55d13947195256dba0e9d26da7f, 0x845ae69715d3a4a3fa001e93e229d3c6785a5a48525d8fc5738a19ea95fdc681bb89727d1aec329436d146102ffb191974d4c3658c12c7c5)
  ; (0xaff700634483b6223ab09418f384659004a30303ef471f80727e139fd33dc50a216b72d3573aa60faced9bbbe30f7fa6cdb5c10c2513c5de, 0x9a2b452aa256845e8148c8ca8d356e15cf305b481375d1f8e08204eccafd54e763e95a4f9830aa9586eb390225cc33d5cc32a1c90062d3f4)
  ; (0xe0dff1ab397ad208f791b42b649fd02f8a8e228b462d2f8e1d588cc14e945ce1c865c59389f93cfa3d4a5a0c0afcd0a3f67873bdbcdfee1, 0x55f076500549239a57a70867c2fe315a02a15ca330d52282be32e1e76e406855a0db8470fa447e2a0ad2f14f16a5f313bb30ac3d90bc6eb1)
  ; (0xc7a1665c60d8e1d01f2475100e47761325ccd1011c28fce4d922778aee845192cd2ac76285bcc0200c256b80138ebaf57f2d729f6c0cf08f, 0x1df0bd6a0d321bba3c0e2008854d3ed6b189c905ac6a4a81fd2426f19d9325f640f1d244f2cfce096f290a88e8578420db950966d7ceb064)
  ; (0xe56ef0b71b8474f68007fdad8f0f89c7fe6ab4f8be537b49249a41669ea1ff42b32315fb94d973f33c63b497b6feb9b08eee872a2e23aef7, 0x7741394e040ad224f6111702a8b1c59986a306d8d3e7a04375ab3ea1fc1fc991d0730d13aa605a4c7ab5144e718b2607f5478b2e83f333f9)
  ; (0x712b19f7ea8caa3741cfa0b77d2a5345e1d28a2816eb3225cbbab1fa4eed90e1b03549aecd4ed1b42845ec42fc9db6c4d49d5670a1bd6fa9, 0xaf09badc71864e974be24660f6d75703aeb8c5680f887021c32e29ea06621bcf21b6b1196a9cfc3649f64cf4126e4a6e5d42e6844661853e)
  ; (0xb0111fb0329582a392e4fe310a7a5152aad6dcb0cc830b5f28d1e53d6655bf7e02958ac70696bbfe4a22131330fc1c8d926fb0ab88df3078, 0x56da61e79d30031e04efcb2718b693e369cc76390efadbe0e0843f9f873623a5d17e2b55caa8c35e4b0fcb7347e5c18f0755c96dfb09299)
  ; (0x577d740fb3cb604d229956b175504820da104c7acf0da66eb50dc2c0a22ed2f0905fe7174be572d2dc0c674e8df3156d9bfc2e6986b5a8ca, 0x5a70ee53e2e364d989dcb19752f22b155d547a6c74bbe416033bbe8f8c5babeb7f9ef02757c2c1d57a7c9987043a2f950a9020b09e9f41bd)
  ; (0xbd6615c4946d91de4b2199b673dc0f0a2e139ba82ab652e2622cf70a6c58d96277f6909f8f5dc9a11ffb96dda25e8f9e3680d5fcd69b04a6, 0x54e0451043cf482466bc82949ce5ebc5a106c9fde03adfbb427de1242f4dea29346536556cf7dfe01c0ff69a1dd9ca9337a12cae842f3304)
  ; (0xbd4f90bbdf059be2ffa24b6ada616fa50c35c8fb129c5f878890790f23dc8864620785cb58eeeb72caff2db10b01886bcace12f45c6214af, 0x1231f84fa4df0fab9648ff6201ed2d41dc1a765d54e28cbea571bb00ac97e9c53b30747b93a8959db7aa741fa115a7c051b234d43abbee7)
  ; (0x205bafc4b519dfff48efc706f412411c5d4615c36cbba4a5c2795cd6e5d87f66f01a38748cab763ddfeb19e7301ca037dc3483535a81b6d3, 0x3478298a14e8915da94f142f7d215df02366d91ba793cb0a8923a6167bbef7b072f82234ef2c42642b1b7832f463ad0af0fcaa5be5227110)
  ; (0x2e0351613bf4de77223abf371ef59f6038b3d12c52501829c1acd7cd0ca284b926f6b94f8a86486aeeb224d19484803c44ad79a0fc831d39, 0xe4999f7aa7c74b4ef85bdcbe26754dd4110c4397ee9eacac22983469e59ad0d720d6fbf23b7e811be696dcea921470ae467a5a4f2b4468cc)
  ; (0x22a0f74da9b7fb751f58981f20eedf29c5af8dffb43355fd6e4bb98811f8a38a6ac543e77ba1abe5cc5f688b1d44f1dbfa052bd405b93152, 0xae51fad0f296e26d6ecae7f26f2487698d40cb49990fd7c34b13acafe156a63afdc4ccb7f130aa048264ff59fc93639201ec8f2bc6397b49)
  ; (0x8a9b11403c8335e3785caf1cbcd3aa8486d3ce2686dca8866c958f3204e65135d87f027666e4138b63ed0d7d0f1fafaf4cd5ba5578fa0a56, 0xfb38c6bb9d98288d4b154949208a6bd7364966a8288a1022bdd0f39330fe15d28330e6e690ffc2b373a8775af5b7d3fb205c1dca22e0ef60)
  ; (0xa24b0449680d9b5ceb04caf4eee19b4b953a1022b317444c260c15c75bbcd90445260df0e001fe93a0d1982e939c6892b2cd9b16c6b5550b, 0xb3c397e859a348a371014e41aa0970183bd9fbc22167c71d094bf4d0cb0b7251a256e9aab6097016a2a671d9ec12c0223e0a62cc65cecedb)
  ; (0x5b66b97dade43e75603a4ff1e8664ef22c83202eda4597378947e38c14c43935b1552b033e7eea0f6a712c5da6bd406631307b2b16415835, 0x3c0c379e893ae143659eb4e1ae59a44948eb35dd64ee419f38df6e3e57ac76d4e9d107b536eb2be561fef97ee461187c8e2cbf35ebca3d47)
  ; (0xa071fbaef0dd7accd69733bb3564f55e989c43d35429b1207827e4ec27fe13c247f8c0d4460f4324e48533cc457ce701a571894d02202788, 0x8ab39aaa09236b114f6d5f9ea89ac4650fd402ac8d27c99df2ab1037dfeb51559d064e46506fbe165a4639a1c14b6dca416aac95e2ceaf8c)
  ; (0xc1125a3b2259f3c93be24d3cf4de8423949d8dbcfa8231aa16db1c34804b840f89fc2fc0fb072e28fe7e3aef2fa81fbecfde7756eeacf7a6, 0xa03e46d3f33e1dfe340c3c70e0dbd70129d07ee95d0043b87b90ac1c8dc09294ce47ca859115fa895953ea261c38db6680e06aa42674a2dd)
  ; (0x6d3613424f86d592cf916fdd10cca7291d38d8d15af70c878e0ce0cf168646a1d00eedead46f7c458e42969f473ecab5ff6d197640340ac2, 0x76738487ed1a33dbaac93179bb31935b360f5c735572dc67a70d97a7433dc27d6caaa876f3809d76098ae0af5024626f15ba50d172d5c4b4)
  ; (0xf720c403ce3b73af3fcacd90a70e94fabcd650e94b371dd8623bf3f0448ec4f46fa51d19fc79f630d7b4ed95d8a02f2bf8d1ca668f9fa0d, 0x866d536862fc5d8cd059e27412a1f248cf032c264025116b36cfb2f9b5a4c1af9b47225843aaf484a4c6cf6928d4469945590814cd636c3b)
  ; (0x80c0e1dd62cc9ef23af4731142a57b323494b5ee9c1b7efee58e280c272f772cc0c0cd8a9449f39737535671702f5187c44241f657c4bb1d, 0x38ea70d6e1b365df81ba58a72cf277964ed2329d5f5ef5e8076a9f4830e12a32a69bc2c5d223928c911066215cf258ce3ccbc05bf675ffe3)
  ; (0xeb146ce87a8609fa9be5dde9a7e8ab1364371999f1ba65d2f3dd78c774e00ecfe0eef8b20086873edd313a3c53078467835edfd25af4a11d, 0x69cfb9c5555679d01c4217f55e49e894266ea5057ad973882b99950aca085760ba7a1b7a09f2237ede4ffa7023dd51ba1c76afd6565353e9)
  ; (0xe446f28d2f11f307f2c9db48fae04751379800dfe28b39fe2d51eb774ce41e53d2583bd84e700add9315f79d4b4743532a4058cd45681292, 0xf11ea212182baf4e9089407d75f23e669250091c7f75472aa34b104a3685662a6c684375740361bb48c16f0395ed6ac14b2b7383084d4766)
  ; (0x842cfec923fdb607cc20af1066e7fb847b7828e14153ccb0d2aa4ff130e5542c6b59eeccdaebc92e03ef274c058c23b94c81217282561d2d, 0xeaf91c8a748cdd10a642464b3db04b85bdf6f1e8b590c82799bdbb5f77d9b7d21f2bd538574ce9955997c5e380dc1f85e7f5edc449d9b621)
  ; (0xb23e5ac434bb69ef6d4e76eb04def361dd5d69d50e0a0489a81e91f304f3c4bc660f13753b0ec16bd629f4fd7c4fe72c34b249053deae5d, 0x71bc5eafaf79e2b6fa4ff4c0df9633f7c8ee8ce868137195299906a5391a7f2477b13fcc4a37f9502c19b6df110bb7af74edc1d96b5eb480)
  ; (0x5d54715ea71228cb6d8de1183bdda99c9d25f45eeadb51bf717c75550e8400b6965388a441c1c34a92b56f48a287dae144639eefcd37ee4f, 0x48ae9be43d738af57fde5ec831055205a19ac1bca7bde8386379aef9b1764ab528fada73090ff10d6634f288bc4735affcfe4634b36ba0ba)
  ; (0xd5e4c5b96ce63363ec533f4a61181be984510ad240b0f9e2f1253ec7d7dbdef6e203378366d06afd13521de88c55bcf47b67867e7c5d631a, 0x50032d8ebc6472b4cff210191cba1baa16fd21c1603e74aa3da359c94d8042f2ff84d72f0e59e47b6ef3ef9486a5a1b5541d0b6c34df4a25)
  ; (0xd81c02db57e543eedd4355be814fcf0c1f9774fbe4d8944868b18f97c6663af738ed20c0cafa2622b8208a8b7ba1a5ad8fb6833e01fc1b13, 0xc3fee95a4d9c071a96b184d9bd4f2ad4477faf420491e39df2b5a3ce5006514732d59c8efc5fc3142795065bc819b813d15e32afc310bad8)
  ; (0x8759208baf88ada5297fc0b777278ef4ff68bd7c2ce40b47647ee0c8614a64a5a31e27eedbd3ad6d834b560d305adcd23e6b33271575cb78, 0xf744e968ae36eccd52cbf57a4a8b99a83fee9f9babdf58e43f1c3467baceae38bbef55546b642b9530149d60a73cdd882e86cfe64918df68)
  ; (0x68d7f7c1fe22e39edf6f93d44b8ea64af2328115ad81cc7b83c48fcb512f5361aa595a24b52b526eef676a97e96949974d61e55e2906b8de, 0xad6569137fc10dbaa852646a5d23b57305922fc34436868cd317d9f3cf12174037db8848ae70a9b0f79166a0b7d6aa3efb2b2116a520d151)
  ; (0xa99bfa316f95ae8d5bb8366be1cd15b0b991c1aa4e8db0585777bd47e7fb10d40bff491bf4aeac6e20c62d53f61444849e7ece359988e43b, 0x3dd93598c6c815881dcc7e54a631b5f7db00e1a665440055b94a06225507c3c2f909dbc6363787942ef14f76e703254f93dca9a4f1196aaf)
  ; (0x1dc8d53d2165b0185fc96f59b2b8f90d14f087648fe5d8532b50bf64f108201ca0acf47593c73b66b345246bcda434fe26dacb70dea711e1, 0x32c4b97295c99b365da3cf2320c3bb6184077650d941601130496c0f303e9104ebb1708f8001364ceb355823261e200c5900cc5c1aadfa55)
  ; (0xeee073e8403035fa4ac631b9b7eca1dfd44afaefad1adab501bc9a27aba791129a7f5c52c1ec54aae84aae90411fb59944227fbd7b7e8ef9, 0xea5b6c5d7b98f38e5d2a3628e35fd7b37209624b17fe2c6e2bc16ec61db8354131d78f72ded59253545e85a8487486acb126b25105a08236)
  ; (0x4a4566c3326abb9e5603cb478335627533f5a5a83653d735874e5ff57bf3ddb30ed86179f98e954588ca296fd4634c2b5ec64095ab2b2051, 0xd0f49c1b403aa624dbf23747a4ea294a79b2640b83f18fd0b110387ad35ec26380defc3d18dda3562b4f2b211dfc2ed71b324641c37147fe)
  ; (0x41fbae505271a77e520d4df57165f7ff493f2f8fc50d6226b10aeff5f33c136f33cd31ad1dcdf2ab50b5eb94d98805cdbdcf8e5f512c78d5, 0x57b0aa807f352251f2dc86d05a3178c1cda7e0f73130c1c1a49403223bc1dcef3d49ebed36b8d49f5f01260835925f452372c898776480ba)
  ; (0x1c192987812714bb8978f9924e323954ffee00fe1e8355e6c7725de90f86df1ec493a5dbbe3a413d64f6cf585f38018f217ab628e71f88bc, 0x8e2bd80751dc987f0611d93c46d1de252accb9f9a96f8b6ce4bf28422307ca9acd1b9231a84fc682e541f861eb59bf70197c4ce3eaabca8b)
  ; (0xb77aa7867eb3d70a01d5b31c5cd5537d92a5929f925f327412e44bef55a13c88828d51470667bffe7506d8ef234c4296330a68c147c7a486, 0x8a57d0e453e332125c2baafc136135f394452948ce9b886787e56851f02064210850108af37aad7fa94e6821da0b37b19936ec45f8b82e4d)
  ; (0x76916bf3bc022b79691a59e0f12f6786f73c46e89a39988495b418dd3d3ef3d32fb857fee890e5c3f379f89c3f03381069a19d228f9bc3d8, 0xf671ba7cd2d876ef016a5eaf2b04a3dbbe1e6986a3b9b591059f049498f2cfd76655f71888b14cb9d0151fbedd4102fdbcea073b62cd8a0a)
  ; (0x7c90301117c4ee1f0f2c027bf2132555ea2ef9d595da53df26371da3e16e92256080cdf8d16f1d65def32b84df1399f8c9fcf714bf867e08, 0x9b061df62fd45d410ffee20aa696dd154a6e3870701f53413b12de371b0f6b3bf61c329b6c3a6a21c077fe76ce251f12d821396aa0e92caf)
  ; (0xab8f287c5ad230274f3d5d7874006cb9b1ef9b3ea02f271825b2aad9a89f691f54e80eae777c688bbfc28bc45f9ebecf0f29dbb28a39aa46, 0x5ed255f53aab52ec872c4b94b19cf80309dd52833d60c85081eccfac0b7189d20af4d5f64d7886f5d430bda079fef637af4756e22118ec24)
  ; (0x74fd786472c729fa3462552c63bf60f6716e00dae224b1ca2f6291e5e15367acc9b25da8925cbee6c3caeacd529d4b2bbdef013e5de9458c, 0x1144d203260f4d961b3bcf9cd970d66dc5fe9a81d3cc039c1319f79a40575757b8738bf600ae6e6eea11d859d059a8d84a69c87a7a4332d0)
  ; (0xd38ea3b85caff37407d90ca2869c9e9bd82745812e97eb7eafb6104046195cb728e47436acc28cb50bf2381d6a993d06fabbd8fd83fb116e, 0xabef67579f776f6cd5ddfbc9917bbe38adb897258cea88e270f05753a10899c9768d04dc9bd54a023383a6f567ad63752c4984420cca03ed)
  ; (0x1c1e13d2a9a4d7cd77e5075284c5c3f884686aa406af994af2d131409abbc5ad83189b95df2b97aec3c66a029961f21fef1dae3bf1ae05e9, 0x809b8079fea368622da438eaf9b79b4344d05ba078938ebaa8d2c58019c8a18d61b04155ea93cd594570b1891332ba673e7f8815d744b89d)
  ; (0x7984dcdb0557c95d532ba9b53ac345f8acbe0b3fd14645c96f0d9150de02a8b1e1827779515f84be60e4d7a205c387b1c83780e51c33b7a2, 0x5aca9e9db35af423434cdd005de2066aaa4c3f425df646bc1a33ad40a4829436295e89668cc570c297c1d2fbb3c9d569ca5ae5ca68a92f01)
  ; (0x2f4f60df864a34e482b36775f0ad5734ea8a3e58546b793f112ff09ca42a05cabef2fcc01d120e6ad443e046843cbe04f06fb627760a0aa8, 0x3f0dfc487be9dea63a64a20ee9b5d5c3eaaac9ec500727e6d48149c3858d9a4248ee61157f5d5ac5eacc58734a99186a71f521c5884f2449)
  ; (0x7a928054ba7aa7f5ff318a0f43ee80c9db8422a43e0d7b6987b28963179e685e2405f941793074875adacab27eee269a7b8a0485459502d3, 0x65ca57fa588be5ceeacf8371129e2795379aad54a3a18bc932226fbf94bcb956edd19afe0d7fa628ab7b837ca0d1f849eca5c79fe0c0834e)
  ; (0xfa99a6e99b23355e030d5db3bb162fca1b6613cac66af8aacea0cd88af1f505111ce0cf3e910945f3d6b5052e2ccb394ad54dd2109680e48, 0xdcc5a1d29895604b8a8257ff3a59e327d5f2ce9f6031a583b011f25c232354c284e993544c590a6b638e7637fcd98c13ba788e0d23c08814)
  ; (0x10e0b14260f0d73610f40c835a1c7e4081251b4043db05096d2a0553a279288b6f97596a164ea1da09cbb4170964bf3a7531b0164e2ecd53, 0x713c276bc4e6009e87a6253d0c384d24c1bfec997960d93c35374dcb32f653fdbc15f61fdfd7f4c60abbcb7df33314ab9134f5c8103581d1)
  ; (0x9c544c84078e77123b9bdc36ee9e83149c7a8543345c0ae68a86b0502a4192bb5c87d33da4797e802b5cac8e5c49238ff30948c77c53da9b, 0x1be09a6064131bd9b2d78bc4462b63d041a09b7b8daef3dec620b8b4e523e58f40c1f67a83b8e00979da29c66a63e3c45e4a7277fe1e813b) ].

(* 3 B, 5 B, ..., 63 B: each the previous one plus 2 B *)
Definition wnaf_hints : list (bool * nat * zpt) :=
  [ ((true, 1%nat), (0x865886b9108af6455bd64316cb6943332241b8b8cda82c7e2ba077a4a3fcfe8daa9cbf7f6271fd6e862b769465da8575728173286ff2f8f, 0xe005a8dbd5125cf706cbda7ad43aa6449a4a8d952356c3b9fce43c82ec4e1d58bb3a331bdb6767f0bffa9a68fed02dafb822ac13588ed6fc))
  ; ((true, 1%nat), (0x7a9f9335a48dcb0e2ba7601eedb50def80cbcf728562ada756d761e8958812808bc0d57a920c3c96f07b2d8cefc6f950d0a99d1092030034, 0xadfd751a2517edd3b9109ce4fd580ade260ca1823ab18fced86551f7b698017127d7a4ee59d2b33c58405512881f225443b4731472f435eb))
  ; ((true, 1%nat), (0x79748e5c89bef77467b9a5291b6d78af2d8c3719bba4223d568e6840df9c7b0b5a2092d335014706e0b110a6b478ac7d7df9567ceb5eaf7, 0x7ddeda3c90fd699c7373bcb23583b87594417e7179d00e40ca78f50e7b3946fd2f84c9d8687a3c40bbb734e866972b5c09e20d3fadac377f))
  ; ((true, 1%nat), (0xef1650ced584fcaa8cd7d824ad4daefa6cdae1d134a3ae7318ad44ee101e344430a0d93e53f4fc8989ed1a467ec49f7c793d0def76ab686b, 0x1560b6298f12ae2daf7acbd5a84df2518c687993b9c165faba605671391c15da256fbb47c32d42971140f52cea8ef3fb8ba74df674f4754f))
  ; ((true, 1%nat), (0xbf12abbc2408eeb1e56d71a4c6405d440db5122d34422ee7104f502967b93775581dbae20b14982f294863118655940db8ef4da0254dc10a, 0x42d35b554bf2fdad308123e0173328c900ff0c5d20f18f5806d187f7390df605d0067485dda13a2efe1288366abf3d8cab0cc9f86016af01))
  ; ((true, 1%nat), (0xbaedd2ef0f50f06baaec1e928e770a544fc9708c5b5232501b339e1c186d12344552bcc67da626bfa5a099fc7e8f9c605009135f2ffb1f1, 0xc59b84f0e52a4c34d56e0804a26854604214e6900213d8a782e33ddd988af7159fd7363165741ddb9be2156e536e4ec3e9535d6d8bf479e5))
  ; ((true, 1%nat), (0x30d6d8c216d8d3b6f721a37ba96945e2fbfd508af9a785d21605611215a1ee8927ef21a25e43b43035db5768aba8712327525d45f24729d9, 0xf48fb8f28ade0ac986c2b28db8027b052223312990799c869f665756d4ef19c9f25900851325a763f955fa40b4a2a0684e3065e0852074c3))
  ; ((true, 1%nat), (0x1acd0638845a9599fa9249c0d5e499cd1394696e609f6c5c97c356586cf132c9f3bf2a765ddff481935da96e5d65beb9dc1e461731649b68, 0x7ba7c6db3cd4fad6fcaef48cb82f8aa400400e4a884ef1357e32c8fdfd6c8a2dc8102820afc5f6161967ea20e78ea17b7f0b065413636087))
  ; ((true, 1%nat), (0x691a0c86db788209920e68bf8ad4a606ffe5810098491a39733c360365f641ae4aa08252c87d9c4b9c2f968e76dc655c4df843473d19c7ab, 0xdfa315df76ae58d1b01b56c06bde9b4e57061b79d61e66c9bf6943abe3f071f9fcb914b78e2ac00ca66ee839b7acf2efe5205883a4d3ef5))
  ; ((true, 1%nat), (0xed126e24bcf067fcad5f2298e0c1a3c836dfe9d72add9a2ff2e886d2cd490be9b912d12cd2e15c20e2951cd6523489b77e803df65f1fd093, 0xef14490418066cf7f47b9ffcfa4d2d38a4710640495ad343f082649374cc5cfe6daf971d15de3991b252bea4d76ece6a081e339533dc81bc))
  ; ((true, 1%nat), (0x567b5a623d3e28c968b2307729f25052078ba08fa1ea639b4c5a5ea2bde047a411d32abd682fc0dec42c310d7853f496a34e7f86b9bb55ab, 0x2318b99cd0f6b6e7b509d3d7a988ba3d30b1f3c5ac0083f603568a7c1fb9b19f5015e68f65023e12cd690319c70be990aa171e825977fbf7))
  ; ((true, 1%nat), (0xaf7f578ce59be0ee9095959ade9a93f09db163e7f59eeeef5dbc3315a61888cae0072e66e8eb6d7a4977366abead2d830654d3b8793ab2cf, 0x1497f835f13f25cd3bfa21d86d2df6c33e3b4d6af7217f3fa09f88caec11dbca6ad300a9a65de2de92cf8aa698b368952324bfd8d5ece59e))
  ; ((true, 1%nat), (0x56ea8a50b382bf5423fc2d43fa6d6d697d577c2c97a2dba91dabb591b32c370099e99c59eda97389a19fd717cdae158af6a579568cd03d1d, 0x247651757a624e4da36b716aea2406b9b997bbfbdd00eb4535343cb5ff45e2543b593c3dd8860f97e559e4cde217d590a54a987bad80c11a))
  ; ((true, 1%nat), (0x4362f0292f366605b2e26e35a2de147f4e49fe0e53cc8a381c30c7a7fee29be758b4635c4dc45319eb393ffbf04b41cc7332207d03474e0d, 0xc1b1d568f35c05fcd94ba18a8ac836a3fd80fb0db57c7c9d53b44f543ee6862f38e4b0f58d4041d54b6a9d8c65fccaf1080476d0c8474b85))
  ; ((true, 1%nat), (0xf6448e35bd894657fa24cc96b98002a58a9b7d104a897fcbd5660894eb2037a489396bc0545d85a1aedb1356e538df4afb16539fc1bdd30d, 0x2fb4e0751d99cf407ed73a7d687b4891ff359e6831174332220da22be0ffa44bd0800995141939e66b2110fa274992cfc6ee727418805c83))
  ; ((true, 1%nat), (0xaf43becc7ff796344e49517df43a9e85c2c408d2a72bb046211b3e22d039042595afb87664623b1f2b3297465a7806e58528fe9a19fddd5c, 0xd24e162932cfa4db70deb638afa8eef29d40f4b1d8981a64decbb56243576142f3d6dbe6a0b13ff05f9b4fc7aaf16ed146dc0a8bcd4ebc11))
  ; ((true, 1%nat), (0x38b1101fe169d9b2540021df6dde771179c2a1d36ef788803e0a87e1cfd0d30f9ccf6521dfad2eaad3f6e77c26ebb2748d0b042893594dbc, 0xceec2542a16f7d822ad94c532216530e806f928cf3b0a24e3ed08943faa7e368e528fdc1b838132076fabe9da3e3ad034c3e35031020e6d5))
  ; ((true, 1%nat), (0x8e29fa077d892f3ea4386f5ba770fb9fc428e89e372be16a878cedf062a3d19b0e4964632c369e3cd3a0d7745d47cbcc76a5f90cb22fe0e3, 0x25745a1868751e61c9877329acd1b2fe0dcced00c2d2e662dbf07d3c2f0f8ac2b5c09995f99c09062029bc891f73265b1173f37081796a3f))
  ; ((true, 1%nat), (0x345d827608a6f7df8f32ca7bfbfb584777bd49b672b0663afcb3db7125095d8922396826c18cafeaaab606f28cefd63bebdbd3f50e6d5715, 0x3a7ddd0efea597d82238655c42515c2809d88c39bdb2559c58fbc88ca71088b56aed449796e72d5aa4cd87733f9f97519bc8f551eaa2d6f))
  ; ((true, 1%nat), (0xf58639927b199d87ea17315d2171418d6e8433c1d9cb03b33d90dd61164cf57325cabf31113bb3e5339ce1ed5cda4a100fb4b57d8534b2dc, 0xf4d9b63d883a8b7095c78c079ba06f2db56ee878b5394ce30274523ac81fd36be998ab0515ff15ac1194d74d3b3143c792983df6472fe75f))
  ; ((true, 1%nat), (0x82cec9e535be318e09b7c43d8adf874aa7f5482b24b26f08321635e2e3efa096b49dbecb1fa4f5098e1b2bbc4dd7ed6a062ce1ceec68b381, 0x610106c3a23b2f6d47c9578c2f92609bc810a8670a9ead533fb87aede7ffcc79bbfee7c134a3256b505745308341da8d9f89867c5762ef27))
  ; ((true, 1%nat), (0x4493669d99130742aca489867cddf86216d661df9033d08dcfc00cf5b6e0e7e10bb783248692879b1ab957246409bbc1b60fb2915a8f9b51, 0x3835340df3953ce335ac2a5edc1c39f297e8778124a751fe6ef0b9eed86e08c4617716748730456097770d10fd9081ba17290cee1d3883e5))
  ; ((true, 1%nat), (0x8d8ee4d57309399fb95897477ab5dd22a3cf8dd1a52233db5ca03062d73d42559f50ea99e1cfba3081aaa318339953e8d49723e5612fb476, 0xff919b179ac5af36fcb34b71ca3bb52b74d91de47786796c01e858ef45ae87523415aee817bde21989e7c354b8be52e91c3bd8cc78e124e7))
  ; ((true, 1%nat), (0x7e67d43be1f8b8dcc8c98017ce5c22a0f830ff621f6674c1506a8be105927a20a5b151a8395343ef1bc37e03ebb38e5f60988777c589f23f, 0xddd051d9bd21e738a1f6232c28dc88f99331c59f67040a3cd1f01a3f150e1112505c525240cc49468acf0e24bfcdd139a547f225e6a75022))
  ; ((true, 1%nat), (0xde63ae99bd14e27c3515b8270d1ee5d4718e5ecfb17e7bc0acc3ab37193dfeb00a82df02751201ae17e2ddb90aa9b0d519450cf29ad359b, 0xb2f724bcc555a2c53e1dafd9c25716e55c3a61ea387183549516e3f28320e007ad3c1d2ab103069d296f49d7ebdaf223d74a598f28249e44))
  ; ((true, 1%nat), (0x347f4a6f21338d561020263a7599610c73053626ec53a7b04dea0340a762eadbeb0a923c3c4ead7a64f6e3124c0967c7e20c71e4c119cafe, 0x2d7eca208b38defc46fa75b59d4f7c69a8d639e2047a86bee510f5fea5324747fabdc78d99e1b21d37def39fcfe4573fa80cde258e05fe41))
  ; ((true, 1%nat), (0xccba96bd1ba70e587214106d1812c59b7305f14acc2ba7d8212bef7c5462bd46fd032efaf6594671e65e3c6fa9c7dd55e8f09d3f9778807a, 0x2d6c8245ade62153db6e99820e6591f519db0c5995b8a36168dd0a2d5325946db19f309991265ea5732e39463b24bef73ca761542aed44ea))
  ; ((true, 1%nat), (0x32c9dc27c15e6dbbe60e9e6bd689db9922086d15ebaabad5af19ae56ed2975ca2513d9e65c6d512dba511b715a16330d774eb9ed57f228ac, 0xa46ff5121b4be328b836528b5c46f32d3941b5590a8c5717ba3346d63ac755ff21511dd59fae8a61244f5f5c914a207d53d9d801a15f74ac))
  ; ((true, 1%nat), (0x823d8b938cdb17885f4b0b42e30f52dd82265857fc445b1ead4b236a4125f3feba9ed9e76a71296fd5df1d7a800adc5405d503ec291a6344, 0xe4776d9572e6890af1171d2db8f0cc0dcb1084a2580440d9501effe1d1c810bea83c839513e1952e643f58c4c3e8e2ff75585b31cf15fc92))
  ; ((true, 1%nat), (0x53e5b08548db2dddcdf0697a95301d7bdc193b4483ba4324a24bf948c522f2eb75b61a66f11142f1b3e877f9758e3505123d7c2fa081f089, 0x9184a24f36231ed44ebc893ba9931e22ca7325fec753fca78bfeac9463abfb3f97a2cd087365edf49c3be5fbf1c92baacdc4db59da1e20c8))
  ; ((true, 1%nat), (0xed2b6bcd3363d8c5c8c7474190cf78889268830e5decbb2a7a1316d82f0fc0c1805e54ebdf13c1385a474ae326bbe3da69f0980efb11b585, 0x900bd03032885ed290ab6aff28bc37c2a777924db78e560d471d43747fd8157bc8cf8e75e15c45616b5e4ff4c8e952b9153d9b2a7a5e38da)) ].

(* the entries of comb 0 in Gray code order, from 2^72 B *)
Definition comb_hints0 : list (bool * nat * zpt) :=
  [ ((false, 0%nat), (0x718f0187063e83b7872ed921aa8a0901a1c1312a5c14d8a748ac5081792f421c742b5fa71b599852da85ccaa641cbcbe2a657a50d5b1f36c, 0xc1e395068b63f9ad051645516c819eb7e411f81b73ecfc12ffe917852b564e2a5013092ff015ffae4174203882d3dcf412005ce49b464c70))
  ; ((false, 18%nat), (0x14348b1cc41b26c0a893ccf6b9c90fdc4a1bb7c2aa02ae840d25efd2ef4bddca6e26121755bbd34c0979711f100d496b1f74d17fee9c755, 0x17d9832b1691d21c5e042693dd91811af580b7e94184f6be6a781d829b128eb8bf7659d61eb4931a22f7d66030a0a67ccc35f304bc9a78d4))
  ; ((false, 36%nat), (0x8572719a8dc6af259e67cf7cf0e59c068566b6ea15f8376c9864a3563f2417392cf9899c00a1ae7b153d9a3ea41ffb37b49504205e28e31f, 0xfb41f41e67f44174072020ce4d07160160e0a9b133478df0bb882ca978ce3dfcfd9d6de9820162dc008849cfba890dde0a6bf97993387a04))
  ; ((false, 54%nat), (0x125c7ceabc522f6392b5a6d2cb0ea8541034d4a8db9c6d425b39663520c360f73ec9d16b929effc1945aa1870bad4217e42a5ae0c0735c2c, 0x89d34ec763babbfb498c9cd90d1cab7a2622131cf9b36f6473b3e044d28caf8bdebdf9f793b82243ba12f3e265a1bb82b40bac9c46f8249f))
  ; ((true, 1%nat), (0x2c654c976ffa16e261a5a4623ac62f4e3afd6637faf837865abbb82b492e87cf788d68adbb0dad276cc231e70e5caca893eec718b2a04af1, 0x923c8de59c954d2b547543dd540036ac567fba88400b64b1675fc8d7609c6c060a7ef0c9bc63040d4ef067e204c906572e8994115fe3a04b))
  ; ((true, 19%nat), (0x5ef17eaacf34b9cbca7ab1a9ee2f226904c7678d0b5348f50ec99708f05fc7be8ad3a5c0bec1817cee3e9d970152796dbe873753833214d9, 0xcc4f8a7036a741026083e686056b3b6bf029abcbf1b34fc052f6f10f5fa8fd1d0ab0824409c2180c9054f2ec19512c198bac2153bcc84cac))
  ; ((false, 1%nat), (0x62e3601c19f6f6af22821f6d156ad21e02ddcf9477873a2746e6a7f3043011db5168793ae0689958fe12326e491a5a26652c0b9b53073123, 0xa6d5d186c5e6ebf5f9e328dfb4d1ec9d8343311bd07752d144452ce0f1a334601f7d0292249c7c9f4be36c96fa0a3336ead61dfe3ed3eb90))
  ; ((true, 37%nat), (0x18d4c227a49c6cd426f130a73ba0efacd83bfecaf0c0557f1cc0f10f501d0e2e77e79d3680d965cc3acc5c2e8ce8cf4643b4aaea830bd0d9, 0x64f92f7cf2bba8ee729a70907667af674674e30f594e21531052bd64b07f356d8cb9c2b496566a095c7b6bdf97b5fa52de7ab25eb171493f))
  ; ((true, 1%nat), (0x2ce7f02f255580c4b1af0535ae595fbb19f2a64c51bb8e9ccd107345ccc2ef25f7146461c235cce2a2ad780b7a9f18f8e784d1a7123b7d9d, 0x604a14dcaa422d0613947a702c5c27e21bb1e579faa3f1d2db6e284916a1561fcebc7fc92ee72478ef0f4c563e65f09e7f1d37c04ac310c1))
  ; ((false, 19%nat), (0x8167c3b26deb52e59274e743842f6cea67f1a89d094310340246e112e2f96e09e8096e64b114e85c842d37c62e14eed4c8fa62b3ec3ed68e, 0x46eb9c95fd4ac79655aa4d61b33fd590652451c7ecb8ab9b7732ed279aeb24671d3113aaaa4452a13b8f5d49ff8c93a9b00d2b09f72fb4e4))
  ; ((false, 1%nat), (0x559b8822ed492ec0af324c205df212a6115f7253182db1fe0f66d0feee9264b9a0c2ff43ed99a201f29caf5d4d1523d2eb335735ef92df25, 0x4c1958f29cbd560cdcf134a78d776e0d84b9536dc5a484317349b59b8097012e217b107fd21ce66375061d16e9e3191a459a06da9e24f506))
  ; ((true, 55%nat), (0x14145fe6677dfa1701f2fff23cca5e1abcc6e9f7d27793fd0ecdedf6e8aab441bd04ac24ee8512430c0ae265c7dfeb08b5533ed24f48d48d, 0x5788668bffa94d143b884dfc3bb3c9f3d452501ac500dc1097cfaffcffb1e19c82e37ab52a1b000f9717c438afecca3a871fc8cfb790e207))
  ; ((true, 1%nat), (0xd1e6b8ce3b69f9e964d84a4a19ad00b382667f9e6d6a7f1acae8fd4f36dcd7aa564759d838dd76cbaf66ce945b64d13404c49e5f13de16ca, 0x998df72eb76469d7c29ab56e0ce0c2225ed00e69d7b86486d9c032783d175db6b68d2556596f4fd47e4302f7b8d0ad198504ad4b8015c736))
  ; ((true, 19%nat), (0x53052e9c0e475503bd6ed7b291002627f1bb6a6d80c1def9341f74a70d7cf8f46f8c7fa62d60b1b38fd0b8974b4c02fa52ea6ed1c1d4d3f3, 0xf2cd42074189334af524948db7f6c162a31c218f356ac2a7c25aca9de61b7e24b536426f9c2b716ea5b3ec6233dfb2869ee479efeee23ee9))
  ; ((false, 1%nat), (0x5e2dd92a4d7be8c57e399fbe06ec26acacb5f08914d6205012136dd4bb4b55401f023bf904a1dbf0e2532fd41a270c7e832e44c6f3c019a0, 0xf5b83f76620ba21a0bed4a9c29165dbcd70626adb8cf794bb1ca6b43a0288923c886b33f6f67a6caf4fcb00c66336affb19130a5505b4d19))
  ; ((false, 37%nat), (0xf292d37a14f8388fce448637ffff0c06d9ff620524be4c78d8b13947c48b193194e269db34f97cd4fb6ce13584e11177fd9ac16b61751d5d, 0x8648b3ce5acf87448a86f74bbdcbcde78812069d31f9763f98f5825f36f567c58c3fe8585b3640d489bf443ca2cb381912ef5d467105130b))
  ; ((true, 1%nat), (0x9c99267c55d8dbbf697ba737fb0747ee73855fb485e8fdab80805c380a3c82ce9fa8a39d4e3942a949900d42c525f02e73a51f6ec002975f, 0x8fdbb105a1d37a550fa8258db08259e7fdbc2acd89696b24f37aaca20137f61d420032880f69620446cb8bf31767f00929226a8c83dc741))
  ; ((false, 19%nat), (0x7ea446008bd6303ad40e6c11f3f45ad5d9e7befbba6732d9948c535c378ac37248525a1a93334aa807f37b7236165ff15fa5446e755db185, 0xe6f8d86684a0e201eb3ff45527940d4b591fc400f66d7e7d88383b23330737aaa681a5b2f28fa4125e23945b5ff8e0ef4660de99f7fd4809))
  ; ((false, 1%nat), (0x4a5597a26499701a7e27811f5dd7628824c1c060d699a3372992ddf258682a98a8a631c681a5904bd4408492ccfbac3b7a660cb70913364, 0xe06e053dcdc43bda6e3e15846f397dbba2b0cef812d05241990c8f0c742e09e0412baf0214ab23becf789b6ea5227e892413c8d1aca1c4c6)) ].

(* the entries of comb 1 in Gray code order, from 2^162 B *)
Definition comb_hints1 : list (bool * nat * zpt) :=
  [ ((false, 90%nat), (0x15a7290b3b09a4489a1d14fc3ab6c2722d18915587ed3eb40e09640b71e50e3b9d898ec415ee2d863d6a9b49608aa728305aa91e0cf93aa, 0xe9d597142da596d8f9ee4c754cbf3b7518d995fc19ad1f5af0134d7f0f74f9cbf787567a31035f017baaee86df286f616e2170ae9b8498f5))
  ; ((false, 108%nat), (0x171d212be49802c35c5845ecf9276673749f822f0401d8ad49c993c673b71bb468ab367c268c15b3440f3d6225a5c8ba121c61cb21e3d35c, 0x1e59d0336fad0e23d0225d6f38a06929d24df207f9046d75ca5688690393e3d938dacc0bd92991c3734ae63bcf33e0cde733c862659ecaa9))
  ; ((false, 126%nat), (0x61af9c32daa58ba8340b2e0e15c3c2979de0371c475e41fd444a28938bef2e4513ce8d10f7c9c1cf3a55da8b6bb3b1e3d3488c4923b2804f, 0xd7d6c18f2ee1d3f7ef4565c0fb6120299236969a32e1c2f3125e0c2cf62888af8ae8dd13da2ffbc8a5cbfdf810173751f99b690b0c2dc5b9))
  ; ((false, 144%nat), (0x39c3925382d85b095eccf2f0733437250f76e4179e3e7cc22f815cf4cdd822bb6377ee48ebccd9be9ceaafcadecb21993097de31ed16b6cc, 0x6d57b85c923f5e248d736e37ff2d4046289dddceda5cbd6aa9b4897876cf0539a4e82c52542ecc483baefb3af542ce749181b96b28578f0d))
  ; ((true, 91%nat), (0x611c88e7a60d9f3cf29f3153dbfcf323cda8d26329f2137d8518f7587fa3c27d20408e377f2756882c7e5220f80c81021a236e6572fab3cc, 0x99cc63853e2f29ff9e36fdec2f8cd8a34ff82744f7df7293d2ad559c6a231de191a371e82f88c966d6b763021da0ba2d6502bc21527e2e31))
  ; ((true, 109%nat), (0x17fedef8cc6035f12ae8869ac60a0d978f2fcf4781005a94a678e9d2220620b34b20bf1981d8849c01369993be318d493cf6ad07dfad13c2, 0xc6827b669df6da8200a08c0809ce4eb50374c64ebb66fb6af663dd07ebeb7bc0a7bd48d56dddc588703c43fe105ecb92aa93030429e7b3ba))
  ; ((false, 91%nat), (0x84b922e9ebb2f23b92b50b0824e78c8a275bcec86e96a5fe50a9801117f55776c24083821d62e03c407585d5be10de48450835aeb2f3bcb8, 0x2d52cd7dffe9b7f8c4a7f238579ba975bd6cdba26e78470d1db307cb04d97cbd957b09917eb046102ba0c9c025502beb36ed7e6e32d854b7))
  ; ((true, 127%nat), (0xebef1a64bdad7ff088e779a79bc5c3e2d2366c63eb3cfe6e76a7ba795f3a956bb61b9b9bf30200ae1b3b3b6bf0a0212ac99fddcf2c3d73f7, 0xbd3ed8d2eb00208d2454f8355a2bc78bc204d07031a9d8498886c2dee5fca5b45dddbfe0c85050218f7381cf94ecd9b30a27263883a625c))
  ; ((true, 91%nat), (0x3b4344d8b67c37aa0fb0593b7f06b33dfbf3526f67e4e74ef26857d4eec0b29bd68973fcad60948d69bc15d96db65541645079e5458dbace, 0xdc5d4be42895be249b0371d3095cdf155629ab67a48c2df1783bd92b87f17806af383fae338f4af7441d7072248744c7e7692138f027c0d4))
  ; ((false, 109%nat), (0x723c05c349ef92cd7d7f9d8e6af6229358d26cc9d8753eedfa09219d59f25bd98d2bf0c1ceb6c4a63993acd896e6c53058fae37543cfb912, 0xc627facd6c689aa82d29106bb32b1824a492b8647f7d96ccf498567a360ea59b986fe96d581f716296266883fd3bc7896ae723dc5f5edf2f))
  ; ((false, 91%nat), (0x81bd73267eadd1b29a8a4fc193d21137c702b10babb8ffa617f13e1c80d74f5614387c607fe94144d75a731a4444e9afaf88501df9a357a2, 0x270d383f98cd883ab40f54e7a7d4399963aa3da6c7c486e0492f9db0af8bd4e3a02ad2bd7ec5391126fec098559b9f35b9b91a4ef78cb051))
  ; ((true, 145%nat), (0x30406ce93368fa01ea9827ee720aef6db1d7ddc51e51e81bccb1fe2f9cacc96dcde64cbd6aa3b46d0fd5930dadf7b8fc4d733c9d9b46466e, 0xf81f7e4697d34d52243a06e86ba22ddaf7c9789dbdc10731af8aec2ae0de2f615a4506ece321ee97d6fbf222f419487430981a8fb3398096))
  ; ((true, 91%nat), (0xac09f736d61684f4fecf79b711cec4bdbe1e3df620997ed2f87c7196fc03d32ce2127942c207256a3a34d82d426bc1102e07fbe9b9c7e5d, 0x5ab4e6fad2fdc332e4a535825aa7229d2896278efb3dc4fbd4dacc46bf0c9ce9ca763823114f2f58645f1b6bc92f9d4efd10e0302fab75c0))
  ; ((true, 109%nat), (0x50ef6f885f7cdb3c852ea8711a1fc159342c555d9ef1ec88669195ebd3a32356ae242b0626727e933236e1b4e336571e4b01d2ec4bf9e954, 0x881158a58301759296312629a6b2027de9a26a53c4ab357b2aa166a7bbab93c22604dd6074738f82280e7762beb70d90ab3a8fb1c9368d58))
  ; ((false, 91%nat), (0x881d2128f4cc97ea4fa0a5130e1fb01c80c6071da6233b6aa4d1b2b99d6adf0d509dbab2c82ce29415141557929582614f9f66861a676e63, 0xa2a461e28fb3e6fc5c2d66089259aedc2ad1e3003d125ba438b2aa500d7bd4e628a742cf56e5fbcc96d7baf9f08a817a90eea09654b921e9))
  ; ((false, 127%nat), (0x3498d580c30597669f1cfea69d9dee59a79478c6e53b106c00ea862bb7f4c2a9e84111973f8f80598c4f45c5ee88bde92f38b9f170929764, 0x7ff23291d11c9db8b326f438ef0c34be73ad923e7766cbca6906ff96ebf9930686e1a7cb37ebca0b35ad9c0ff4f02d80e77428a1a9360add))
  ; ((true, 91%nat), (0x3215a62ad242b93c2072d1c98d8517767e52730ed928a117937cddd740c136c96bbf60d840a0a68a1ec56d5176729c246170c57fb2a40666, 0x6bdfb17c4f834d514429f26fcd3a2a55878312a59eff96e0cb3cb02909a6c522cb0783b3e070dee71d0da5bfa6ba03ccf5194d1f2fce5be9))
  ; ((false, 109%nat), (0x596e3c853770666192c1413072cbc4176ac3803d06fbae6b95e5135664587a67cebfa375708a831a90013c518549e923a9f6b2ee008f8bb8, 0x2c0ecfe2d621bf697ebd9151b99854b59f6202b348f1cfd59a2c4ef45507cc1251bf75b6b8059b7bf256137240a4b83a62ae9127863b3f83))
  ; ((false, 91%nat), (0x8f987e4c472f7d07ae6a21084e2a9964e629ec378ac3e2441064b553bed11962f71df7dcaaad0e5581452210894ad42a48e05cee5be6954b, 0x3989ee52c9e9a4c51f84ad7a4c9a2030e2d237fc8cc090129479ef6d81ae4d9c76842de759ccc55676b46c5a0d7ef5c0e90ea5e621430676)) ].

(* the entries of comb 2 in Gray code order, from 2^252 B *)
Definition comb_hints2 : list (bool * nat * zpt) :=
  [ ((false, 180%nat), (0x15844945b98e28d8f334ad5139ec153c22be9b8858b07e1641007adc29d8d2c3d8fb70c565589747fdbf51f753b4dad382b5859a5a33b4ba, 0x836bc22ba0c9aab830ca3e5d67dd14786ae8be6c7e94c16060b89ade37457a7d5426d342d54c5fbce0471144a987cb2fde9f099104e9d2c7))
  ; ((false, 198%nat), (0x24f4e194b2206dc7adc4c328417f79021bd25782e77cb3e23d1b48125cc41b0fa6c38679ae03142df6576646c1cc142a4fdd1aa2ceb8f627, 0xee6e39047656adbc4bdc0502c5dd970e3eea494551aea94d2dccb8dd07f9e432b219109cbd69cd92cc8522c6cb625e946edea145d0653834))
  ; ((false, 216%nat), (0x2f58f6c963f68c9219aa4b465fa9cd9b4dbf59c81dca437e4fa26ffa565f09b479cf8b4d3e44b4d468a04fd6ff6fa1323ad672cd989fc8ba, 0x812c084b496e73ea80225f0d42c3a4d2b7f4001ebc427306d3ebf98b989b7d928c0c29a3816836a5f46d308999fd37344f978509a5141cda))
  ; ((false, 234%nat), (0xa5575a30cf62e5e54c6361e0597eabd9c2f48281f8b52e9cdb44729d62ea471b8a439801379a34588b30838a04c95323807e3412fb1e7a57, 0x2f7209e0a7ef9c7adeb1ab5a9c70a24dac3b6f87ad80161a1d29f5c64715e4c101523a5521de3e81df94fafe6e28e73b36efb6b796e17ac5))
  ; ((true, 181%nat), (0xf7950816820b5e56b3fcb8f111d1414c0e3ee4b516688693784718abe908b81c87697aba1c9b96f02316b3501497b09f46ad228fb654f7ed, 0x5e07a8a744be355f89f13ac24d3e79bb1a9df456b52d78045912994ea0418020ef340a71b8a4f1efa15d2752ba702f20bd6a0a7aa7a0a2f5))
  ; ((true, 199%nat), (0xd3386e0023e1632b0d1d3dfa66c60abb6487a94835653a581bbcd854eb09fefba75bc16b6b22655a152fea62e871b364fd1eeccf7f6cdd4d, 0xd8c204e17f38fb0a4a297a70a011ce2442e736ed68b36fda260a8ee5986a101568c52e23bed1b1a4be930d6ca62c2da52a0edd3f8ee9ef50))
  ; ((false, 181%nat), (0x6e5965e3aa07f7d936d5d474663aba131858c7929f059ac6abeb2c2a9302a5ce325c622330c8ac01c5a53ca7dfe59524851e5e739e3489d2, 0x3ca6428ed8d20c84eb03e6a529eba9300aae78528889a19a3d20016d833f528cc81e6f2b0b790263355bdc190afd5976fb1e1a8bbc0d553f))
  ; ((true, 217%nat), (0x10cfe213dc251d211c62322825c4d83c3e53c260642c3a18b7b9e7da8111e204bec25d09f33f0a35be7f6b296c8764a98154c67417c05b87, 0xa604733d3611e36928b8b9c2a6f43737a7c850b2c3122378d9525fa698a2a5f0f1cd13958502ffc1462dc71db0400f9ab246a2ea473a2dec))
  ; ((true, 181%nat), (0xea1ada51b86546d477926c7edbf17cafff09312a7eec8c3cefbec3dcae3fcc85ac903ff4eb55884be0e749d29a1626af1adcd0c2ecb93de2, 0xd1131863eae71801393cf925b13109892e103764d6968357723edcc811e1f6d1b91675add23c7d65436b48dbadd91d2c7da807cd39fdac24))
  ; ((false, 199%nat), (0x1d52812c77b087ccd73f6a282c5906f7d21c79a0a02e19b44a449eecefdc0f298c8a4a0f4da2308b59a74c88e7c545b357d2e7941c28972f, 0x5f6f8ebdbc5cc04d5e415e0b9ba4e26c1c79773b133444b7cde9c9ba5c9ae1d46a0d1af579c334510af7c3f4d1c643523ab61243234ff687))
  ; ((false, 181%nat), (0x970b078a63268a700b982ecc8be9469bffd16d5439d7d12082fe2af66d026143668f7c2c5b820efb301c2ca4bf7037f640581234ae122439, 0x8dcd1ee9c6522054188b68269cd5ce9769e73a3954b0d93358abb2841853ff20772f2793a084698827e1c1d8de2d0704b5834a3badaefa6))
  ; ((true, 235%nat), (0x92b2b4cc5809d86d717a4694f03f590e2210b535ab1f4af45839b8537ce554149439fa1a85de491fd7518f0733f9040aa82210c3568216bf, 0xdaf7c5292f39a99ded53ea58f4d76e71faab320f86ec100bf8e39c2a7aac1671b3095b97696b1ec3deee9a8279e1ea1d2795e81eb17f08f5))
  ; ((true, 181%nat), (0xd57481b400d0cf607867be64d40ed2960ce9c64c1bb19d895b189d9ed50eaadfc824454f9f3d31adc79eaa0ec58b96837fb151131626b41e, 0x1bfc50926ce5140dd94b69af560cf949135056e6807ba04890fb2263df91ad4661846eff3889bb3a4c1f4f8c800b7bfea25c9dcc72c429a9))
  ; ((true, 199%nat), (0x8b8343d18d77516e3cdaaef6cd4ac1e1ef126dd2c81d34d1fc870c0191c2b39bd07f0baa7189e52f61c31c2057bf2b72b0572d342f28f85b, 0xc33e47d55b88f70e3103e426df5b038f283541788c34ca5287e05a0dd4d06e9d70896f7464fbf1cb7407e2c4ceb4d988e0cfcc8f69e449c5))
  ; ((false, 181%nat), (0x9ae73523a1c34d1fbc5a1508cd4447807cd0efd7e1cc91f89609ce3b412199b27665e0c54cb767de16758fef675672c1f3bc8a60155ae66, 0x346031fb77ed5a9052d8b13ff6459156fcbe0548693a3cf97289749c7e61f9055b6c392b0f13020c7494fdd0e98e88cc55550bcd56e0243b))
  ; ((false, 217%nat), (0x6974c2ddb3a9d20949d494db9c729edb193d260cd743e7de21a7f95296d17ccff35266dade71e5ee17d09f2550f920ebe54907c0aae3e6a6, 0x19029a5ffdcfcdb558eb88272d9f9a3fa674774842f5079cecef58c9c73923201347a36c075979267b78317855022c666150522a9b6386f6))
  ; ((true, 181%nat), (0x137ae913c76e79811bcc896d8f83257144e2951aaaccebcba47cf086a210f67e7fdc4a223d6994bb7a54d7986dd21b77244ea3563ea99d6f, 0xd8dea12de08cdf3f400a9a2840e57e9651a305bcbf65d9eb6fc778dee49e89b9395bc0185f7d8685aac8d1e4382db0b235d3a9bf6a268322))
  ; ((false, 199%nat), (0x86e0466ac1be4344084521a58795487cf7d822ff807a20099dd32f667906e4715baf27e0caf23061c35208067c5fad10d4a27af587c6720c, 0x7dfb565e5dbd36c2d4f3e29a8377bd9e03c4d9e27b34a2d5d4288c9d6b87bc89e982bf945323c4bf394ab355f3b37e1777260099881dac45))
  ; ((false, 181%nat), (0xcb3544eb9e9170515a862df43b3fc3c92e3504ed81915e9dabc99768088d59004043ea6b763a5dffccba98244ba4b4285d7e874563491511, 0x20a1c3b2468fb3c2bb0561cb301f595a27b9b4c16f02822b913353e7cd8e55119bc39773d17e1b2a9f2dc5c065725006467a0493000965f6)) ].

(* the entries of comb 3 in Gray code order, from 2^342 B *)
Definition comb_hints3 : list (bool * nat * zpt) :=
  [ ((false, 270%nat), (0x9b8ba968f7c56220abf6a8e7e0aacb12c181c21fadd108375963473c945f374b7ae70ad4e72cde32fc24899afe071366ac5c191767605a93, 0x5a6589dc78ecdf5c5beb1be192e51c6e6e8ab2c035f0d1443e7dced9e5101d78f17b84bb7d9b51dea39d01b4a42bdfa3020a77ee67d27c9a))
  ; ((false, 288%nat), (0x152e7134dde68f03faf1b860cae0838626ed49e94731fe4023f7970d4ef5e02b7643b2c3a041c1bb80fe282b1706d43613f988406b9b7fa5, 0x49d4443891bd4546e83bad59f984103794f520232d256873e278215ca9968168a6b0e0005adc0e625c133c3991c972d6e4e6ea88c48d2577))
  ; ((false, 306%nat), (0x438dfe505b25431a610747b8928acb42849e0847d23ac7617161a3d64c5c19d3df55e892d75a39afb1702c51839585194a616638718e90f7, 0x39554b91cc589d1731a47c1f12292c6593257b670794f077de6d32237b080b19681c1a74bc90cc7d8ba4ff5ddd00b49e2a2c2e79b66ec0c8))
  ; ((false, 324%nat), (0xe62a86710179ba16e1155c07899f472bc6ac79934680fd2acbb9d110553c27f449bc53e818ddbb37a50d2d147b959361aeeb251487663139, 0x664b73db1e64f790ae9273791d8dc493218509a7d9c12eb9f3011c02ffe2e99dd9af7f95f4ebdbf87320a196a0db1a3a8ff2069e2fe8e378))
  ; ((true, 271%nat), (0xefd1374dc08c672f4dc812aa645841fec3b43963088127d135cf348724637665a1dc9e2583f99a99b47ae84a6eb0b795ec78b5b5a2d76ca1, 0xc8112d535a74a832678dbe8e8ffa7827c2c4aa853d876603bbb0aa08a770b823fa7cd82a4090630dfc2d3ab95570287f16ecf603f79111f8))
  ; ((true, 289%nat), (0x83433904541fbed47f2d12f379dc985491f46c93cbdb2c7eeb45fe045cc0804076c824e82c9c3412d099bd99705290e8f3d71f0be3e8cdf6, 0x850c6ab3058638c6540148b1914df425617f8695f95248aec5655d95edd00bfbeabba0c768bcbbea5929ea7bcad722c8ccc8940bcc9bf6d6))
  ; ((false, 271%nat), (0x74ad993c1cc77a7ec8bf97450cf81c0f729378a8bc7af894dab395a1febec35b1f6b068f68b1ff9ae10971ec8ca79f37a5532b4fb02e1303, 0xe1a672678819aa138932c11e3f3cfba0e9a93e740fe7c4f85bee1d66a175bec124b42173e3c3bb48b04c9975ba958d1b130c376290727beb))
  ; ((true, 307%nat), (0x3439051a09a7a2f0de1335b2e1e23ef52707c668917014d7162dc4377fed1487f1d1ac4f75517c84cee4e91c04fd7f20298c7b5f5d8fa911, 0xe7ab142b28bd70ee95db11c17558840c18f12f1a967c81636c5ed78732fd6d5b8eb7480d4b7a53c37eab2abc64283a77add225dc2209ee89))
  ; ((true, 271%nat), (0x9b56cd704376d5167b33f6005df5c85b005b5a108e3868c70f283f6f403d857e14d62ed8cb63d3ad48a366eb67a7db78a3d07ae736df1d36, 0x1a9e857a99d9fa8e97f7fa36c595016cc345d91db77bf3b85819f00373d8441282bf749f554ffe17c1862497095c1e26efbcda21206f0cc2))
  ; ((false, 289%nat), (0x2b67387fcb6230ba8927ff1b7677f5efceb719aac47776971ebb68759162effad782cc842c9156abd1616db966551acf7529e3706311bb7c, 0xc05ea13c3960f36cb2a57f43f7dd4860c82a48884072b5266356ad72e0c384e60880e41cdc61822d9d23f7e68a30b9344e133f9124b5335d))
  ; ((false, 271%nat), (0xc7974eb87dbca5635588575680265ec2e62f281f5dc9af0bd5b4fd3fb909e4d082e4e33deb4c961dcbd7b9614818d01b16b869f628160e96, 0x2e549484847c35f26ad3ecf15e60e220ebe90b0f39477ad100d838dea66c0682b40cc95e271a3d8b7c53a4bcc5a3f2d65f1b93d3ceecb7d5))
  ; ((true, 325%nat), (0x1ce587b1c38ec587a3489317ec36d9097d946bcc725dca1cecfd9a95332634b6da2a7c31a639f205e4845b22f2569f60a9a57b21dfcdb5b0, 0x92f1e935978240192810bc6dd43fb806f08ea4fe84692332120b109dfed8470a2f59454d871ec7ad22737151b9c19d89fee88f7d2379011f))
  ; ((true, 271%nat), (0x505e77a2c634d84f4e7d37acc8bea3cd6eed2c2165ff0adfa3c8cd99a5b9d8590f0f4793866430675a04c1014a8af9ce81cb5c2f19fba104, 0x4fad694c2b25ceaaf5dc69b6ec1366f346a19795b0c673c2fc16dda01668e1518ce4d67641e584b595071973c5b5ee7caf6e5f606e09d0c7))
  ; ((true, 289%nat), (0xcf2133a2329213a1657b3f246395fc64bc773cc8d5b9dabab49c1541476ab8f1ee65c5c06be8f38df1477add4c8aea7f8d43f2031b97f0a5, 0xe02895034ce0251f2a40baebda072c974f90817ddc686e9ec77a6b0fd76b678dc9bdbcc2b2ce8636116fd79aa5b4666aeeb2515ad5c91b4c))
  ; ((false, 271%nat), (0x68920dfdb9cc59e36d683506a3ffa5edd85aebe01c2c1fe035e45a8939e248102d6566b0a51a086ddaf6a2ba3c7cb0e356ab14b39eef6829, 0x8956da66793a62d24dd9a377679be2fbbacf4295c271faaf81d31fe371bbfd62a08b6b9c0be27a166e7b9fb5266abaafa6e1f5080980c54))
  ; ((false, 307%nat), (0x74d9527bcdb36b50ce215ae61baf1282ec3881057b3c25ec3107b6cdd151b37f19174a62d1478ac23e8a2d4e14b81d8847470647ac2c1673, 0xf0274ba20b11901a833337fe2b7bd250402e0c86cb1f3439df3ccbc6b5ccb755a822eb3bfedae35de19d5f471f0c21f1450cb5cb22c512b8))
  ; ((true, 271%nat), (0x715f00f1792da3edb26debb0c932d50218674c9837f59979684be88723021cb439388dc4e7f7f6a6960844dd9e0082388a5e16e0ae8ea223, 0xdcad42901afdffb7d0aff64200df9a55dd8243ac168e50bf737635416e7da17d2d64f78b23473e7867ac660c49a9d85515a7acd454c01188))
  ; ((false, 289%nat), (0xf6e9a6dbf40fe5b7f885e4c543944c6503a44cf96e7fb48b66d670f3ac45ce4812ea5e671c87523d9767644395d66b91e64c80557beb7d5d, 0xf008d47ae72f8cbaf1a4f8a82389a8bbe1182ba220d68e88ed3f0ff9dd8110c43530eee8bdea1dfd593c9cf246a70ad553d7baab2db7c5ea))
  ; ((false, 271%nat), (0xfa403cc593b9377da5f25f6737506f6bb42d15edc0e77d787ea98792765bb7b1dec414b8320e64141afa29df7d73bbe010d54b29f8b80002, 0x8b58527b9c570f2f5f4ddd135a80fbff2f23fa676a523ca2a357684aee3b698cf9ea25608f61d8503b064fb310c62864d3321abd68087ed1)) ].

(* the entries of comb 4 in Gray code order, from 2^432 B *)
Definition comb_hints4 : list (bool * nat * zpt) :=
  [ ((false, 360%nat), (0x871a7e0b186e84f4a33d7cbda96f7bacd17e2ec8aecad16a27f2920649f7e03f402243add08d0bee4c5784e2d0d1cda7b9aeb1ba379140a0, 0x55d381be5f3e0506bed9a5cc0b20503c4cd7c7a9bb8b75b3b56847da2479d3173459f21d8515ad6c2a4c2f73be12b69896431be44675c815))
  ; ((false, 378%nat), (0x2ee64458a2259a3a0a02026491279fa0ae5b354b290533061eba4484e3cef7c0ae5636cc19f981e2894752ec6d8303644730f91d40b22fa4, 0x2e96a6bc7870393c2b26cab366363d97d3a991b2cd8da689b936b41d939548daed9e01b5836d93c16f99de5751b79abf37c7b735dd5ee83a))
  ; ((false, 396%nat), (0x886789b7f7f05a01c2aef824e06b9a0c22f93a6e2e2b991c00154f366e1da6dbee129f9e5d9f81b260988346cc5be27f3698fc6720a9080c, 0x69ae6483c768e7f62b5bbce6dadd03c9473d9afa33ccc46a8be79bdb8891699654c6b3f083b13389ca931cf504c17276ba0893e749975e4f))
  ; ((false, 414%nat), (0xc4abb093cfa58b5c321800b6815533cf8b09a7a40b16092ff676c7a8bd2fcc05dc93c1649efdcba514d46ddf6a0ec90cbd71799ab26346e0, 0x6c9f55fee4bbc9c6374097c698630a4cd2e0cd90c9921aec7a7cf8b82b75ef51028f28e9a59e37e3915bb76079f8f4cf6eaf94461f2c755b))
  ; ((true, 361%nat), (0x59c588b198ad1be7bd8b745f0624b2ad875344e1c6bf82a2b13a003beb529c2cf5e333af744b24da413177e4f1ad9bbcd62cb1686784e67e, 0x1daacb65eecda3939c0a13b9b3887a326b70602b2d5f82907f764978ff57ceca69afe570ed12633c93ec358273b4a9d77c81cf0eaa22ef50))
  ; ((true, 379%nat), (0xb32380757e8ecea6ef4c93077622bc09b0a0f68623b6947e9136bb5351ff6ec0997fac58cfe03d2d52ee8bc6282ef7cca53abec77f670e7f, 0xcd1f1c6679f599060ece1a2aa703619b2ded9b967c1077aeec74cd19237eb364aa8ec689296131c7628924ecaea6cc246930da2ca9b470d8))
  ; ((false, 361%nat), (0x5e0dac7322e949bead13899fc003371f4d0f960f2b4ecb4570cb28e53d30c4ed538ee5b871063dadecd43989adb98dd0399587125152a71, 0xa9ae58d8df6b3837a04163ce8860efaf984dcd6eb0a6ecb108cbf903dfa5a5f580480bad8c164c43718a518cc95e0f640c49d065d220cd32))
  ; ((true, 397%nat), (0x93a76766167ad38494801abe339ccb9f72e980a9d1704cf7856e3d1fecd20d9a205ce3918a464067538ab90cd7e1c267ccd6d6d4c399b425, 0x547e410c9b6953113da8eddc70fdd4e0bb4948a2a697bc4d8835f65c4d0d2b32e6c5b8dda47abf5c0f2c967b0497d174889ed07eb08a3584))
  ; ((true, 361%nat), (0x93ed406397749bf662e50ebf1feef88b4c519410ddcd4ee93d4c6c0b3f747cfa6a6987ed823ae0e3a7a70cf25bc4ac117a0e6a03d72e3300, 0x70ac7d18bae8ac892a6885f23974418b267874769cff65b34880191d604edb72b1a919359ddf01c50b9079724111bd0435d550de454c33d6))
  ; ((false, 379%nat), (0x45d9296e7d910c73e7ae2bec9e0743e08484d1f9b79eb74a15f51c4323278e22c7af9ed8da0ec180396be2834a2b19980ae222a7af04d842, 0x55ed5a168f8356c29daaa56042c35af025d0148e09c21ce674c11b5864e8d0e637fa020b166e2eee3a0b859a5efc7e512c0310f998edabc))
  ; ((false, 361%nat), (0x4bc905ddd37b4ce3668ef651a14dcba4e6ecbfa747fae7530c98c91e93ef9d04f4a8694e8d118a4441582846e29984c9cf5e1dedca94e00a, 0x7d73593161f778126fbe5e9afb9d1913eab71be0f552fa6869c56d1f244cee8a9947fd95dd3af974cef4b313e4a636036863bd0d1e713ea7))
  ; ((true, 415%nat), (0xf33097f935f27eab1638c2c1c4de2e4a136e329f8a1b20630d19c851ac6dde63475171f0a3ab83144f00e17fc0310d563e3ee61594e7d3b3, 0x7e61cec403e59b0f456f68f266e6f24be905d1498341d4b1f66e8723599700780f44f7439030f58f769ed688d65fd6f88f4eac531857ea2))
  ; ((true, 361%nat), (0x5755c8177e9308457f9593610ff04eae7b2c3ff00f4542d1c4a249c0b5c15dcb0d47898853a0e24dc614eb969f1067f57cad4e6225cf588b, 0x7dfb0bd07072f752c0cd4804ae63fe5520e585e5ddf1d80f57b6bca0bfbba46fab691df3aac8d0ee970e7ed4ddf08b14a8967631f077c0a4))
  ; ((true, 379%nat), (0x9560b3213d99d7fc0fea69f6fc4bbad09fb982d13f74129893d66d5bb67c67f98414ad560239b75ce82399213874a34dd3ffc9a9bc8bc42c, 0x7c68015084e3e6754a2ee892267f422a02ef3f246a92d06b6429cd294ad0e4b5c0f59edf8fa0309f9a5f91cef2e3acd780beaf1a244a9b62))
  ; ((false, 361%nat), (0x7ff0d3b56a49103c4ca728489342030c2bf5cb2768c4263c55297b1831cd99a01940620a56e3f09f35fee646dc7a01d384e7ecf443a3cc7b, 0xc590e198238553bcd053ee8b637799536f653a43b1b779c68de259c444b4f50f7d20fb48c3ab209b0def7112dafbe610d6ba69369a257625))
  ; ((false, 397%nat), (0x39dc058edb10de56c343cbef3d117db99558164a14dc2366ff7cc2f5463600018154ce1d2f7e8e661c8cd8831000eae3cccfb870cad89459, 0x3d1e4b05fe997dbf18bf5e763adea1cbfb07e2f47ff80129b348983ad05f00e9fbc07e6e0b97c75e97bcb5df45cf8f963b1bb47d3e14598e))
  ; ((true, 361%nat), (0x7fe85fdf7927846695caeee28f273549bfbea33f9a54c9c22e8dbd8d9e3c7861702fe5f3ad03e1e2f83a0e3ee084561248ace3b4503483f5, 0x1e28cb82f2d7a04e6f3804a9aabfc8b7a6c6845e1135bfcdb2d637601e3e3209c44d44961fcea075d73f385f1dbc2cfe9e5b61b02258fbb8))
  ; ((false, 379%nat), (0x97fea03f30961070b85755078d9308dbd7284d1eb9e538b2fb4d94bee1e65888ff09061adf7bc82d4dbdb3737810ccec969b1021c23127ef, 0xbf44ed0e0d3f0399ca09e82b75d7d16b2ef4cda98ddc9ec98b47e5d4afe55b50fa4a69e2bc36d3e709d2231a2e375c82da27aae1db9b8823))
  ; ((false, 361%nat), (0x1d5685820653a3035631496a6b3d590fa0669c1edbb8da31fc9013c7170be04b64a0b97efad71db4739717f3a1b1b3f828b8e91b41f8a8a1, 0x9c69fe065bee2bb0f216b7bdabc948088f8e70d90b254dc00525f0cb0c0369e8c0270011f9f1bfa389bef78dbc0074341f50d2160f90806d)) ].

(* the first of the next points is 2^i B for this i *)
Definition order_start : nat := 223.
(* from 2^223 B to (2^446 - q) B *)
Definition order_hints : list (bool * nat * zpt) :=
  [ ((true, 218%nat), (0xccc839f0dacb855a9053f6c1d0ab4afb7377e8163cb279b25ce94c332ce996ddc24c8398cfa54c8d5daae007037027cd44fa1d4881dcb3a1, 0x1c8cb66681086f036e044171632b4351d8fa3c1f01a0ce8e3af959da48199dfeb7a871e00bf6e6f8edc5c36e19e2950f58733fda2b24677c))
  ; ((false, 216%nat), (0x8de3b2d3bdb64d60e5e3abc2da0ac4c2612c66fb040c2f98028bcdb5bfb456acada4fbaa8799ed70eb6379b3a8ad6862aca3d5ffdbcf8e6d, 0x19659c944a79b11b19e95968734ecd3011bcfce7e5b07edd4687df32a2852fdc1590933b21769174e63254acccbc9257ca57ca87ea4707a2))
  ; ((true, 214%nat), (0xd2f9dfca3cd3799fcba28df4567fcbbf284028ebe0251c38adebf850e4666d444dc112c08c3b8fc3a57fd88a7005a06367e3871d7eee6785, 0x811dd4ea572dc736c4eb0d20eb235ad8d83f9fb1d1b16d3c8f8afe6df41379d347b448de15087b19aeaaeeb5715a2e3c9483735cb91c1898))
  ; ((false, 211%nat), (0x51f7d36992dc1fc928187a058dd49dc17b82a6f15fbc2f34ff5869bb7a881ea920ddb1bc23139f879223412bdd76b88e6dd06fc02d49452f, 0x1bd5ed86468e5bd24e5991b5489e83ad3834b44c6888f5955f727f13b71c02b0c62657bb0c561c3d06f15a952bd9772820b30a83e34bf4a6))
  ; ((false, 209%nat), (0x8113083196757750f29731f628a89e2987e92def38907cc08b5475120ae9af7cb58261955e74f3dfc0ae189617e62c5e8ae06d7aecc5a6a1, 0x2e3863c9a2d57f68b4128da1abe39a752606b0103b8f6f198ab5ab837fdd877132a77ea43b59df9ea2dbc51b2c34809f0e71cd00d7a9484))
  ; ((false, 205%nat), (0xa2a0e660ae820fd6a2af2c5f73be73b8df8530ef06b7a5e7962ed9701c6b1977ca8895a5b76e4a666ff55e515a05c099cf0188f241a7eba9, 0x8966e8a571c8a58fca164ca6051c527249b4bae8274204e701e824b8189dde5124e8354b89573654363f09a2cc171423891a4682ec93c1ab))
  ; ((false, 202%nat), (0xbbf6cd1a570aba8b644797b214624231db3a0d4fa245984333d02c696ec3baa5a36ba138eb10644dbc172ed518001bc77208b6ccab44602b, 0xae0f6bfcd9cbf86c93e9467b45a9ffac4b08fd1a93f856a1298723f0f7d1b8afc74399b5d55ad0303371e9ae2c3dfa84735139b0f44aa907))
  ; ((true, 197%nat), (0x1c4771483a7e4c079181c31c44d87550c3b91973a9919ea4d23b3c8a037d9b876a0f3b39aeb20ac146dcdaa0212553806189d38b2a4b081e, 0x647c3e29fa80313c23fd8bb81e6e1b3be74b2aa5ff8f33d6ef79420b87dad3bfdc6670c702353d397edd718cab05d4a0bc234edc69b5276e))
  ; ((false, 195%nat), (0x5326e9de97a24daafea3d6642b00b249b2f55dc27c5d808d980e0bebe21194ac96ccfe63f4d9ead92f68f2160c49b3c43ba2a046efbf3bfb, 0x1472ddfca7a2b51dfc8b25860a7e9d989b0c24113991b996ddedfefb9cf12a1294659632db305b5e5c737d290de2c4df0303690679c811d9))
  ; ((false, 193%nat), (0x8c32c05c4645b7d9a5e3ad7e9f4668ed9df75ebe8f744fdb97d15cc77b5f29af105c6370cefb1014eee8669c367a88312562c707aa9825ca, 0x2fd600f0e6ae6c59759c64bd0ef196cf9ef1e4991396c7aed9ab783e1b239f4635e2f3d04186f79025f2deaa44bc913eaabd69d8f292172b))
  ; ((true, 190%nat), (0x3fb88707eafb416adcad5ed4e2bea9b95299ede3c5a477397e34367f25a1bcd7ac782521942fdee2d5ea5689079947388f8d6af4055e42e7, 0xf675cdb29bc15945e9a4b4080294b82528f93a4336a96b60660d86d6ec1b538855c087c191d8e4d2f06de6b7ae9700ed8024fd3e85c37436))
  ; ((false, 186%nat), (0x4f4269dbaad3c9336d791e18ddcd52b7adbb0ba99dc2fb8191e06b1a980a1631b2d533cb6924b68b4b12f7c00fdeac62c1d74eebbac5b481, 0x69ba3597de4ab33ddb3f36b173975e4c27452c103fed71d2cc543677e5876945d64e9f83a6fea090c9d3bca9ae0a3d98e9d99bf2e32f515b))
  ; ((false, 182%nat), (0xff68d434af7a32beee829a5e75bcf74040f0c04efba6d4bd5be7324548797d7a0487e1f6d60fd2ad95444cf84e3b4b2eced58182c5848ec0, 0x40344c612a8f86da454b05089f534c47e9ba3c34362c6e81480e32b42f2e174cf5a73543ef3ab9104f05b545309de33bde64dea05c6c5f66))
  ; ((false, 180%nat), (0xa70d43c724ae915e7a829ee1183dce065a8e52dcf713adf7a2293b01948ecbe23d8c932fefa4295555e924d2409e3ac817e814403dd5744e, 0x2d790d72c0dbf6fbe3a23802e88e99958bb6a087dcfe759819961c9b1f01bc8a3969066616afb0855b09a3e0ca5c85e63baea336fc4e3b23))
  ; ((true, 176%nat), (0x7c5a5ff5f3f920bdf1a8aadd5b48fa9e268a0fe2c1fe8e280d4fb935963cb56d02584f9968c3bfe515d3f2f3ffd3429788c9b44b55f9d0f7, 0xc8554539476d88da053487771b482d3f52d2dc191226ab35da13cd0d69cdc50618e6a22006aece59aed619339e70a9fa9ed085133ab2435e))
  ; ((true, 173%nat), (0x7045c6f7be0f934202c4544888ff86a5a0c3937018687986506c89e213f677f3dd7a87820c518cd91528e2a89cf206e3f7867d801d89b9b0, 0xf0adf515a238e306ffe53964dd3fc5dd1bd5876211fa404cdeb3cc9a527650b09e33d94865462f3ea7a5db77838b0e51d5ea3cf58ed4af75))
  ; ((true, 170%nat), (0x347e4d9e150cc9a9c5355c04b4ed92da7976410934eb8151b6f4e1e17650f3237d7b6b336b8c33f3c02fc6ac0bc3b15aa1ed0f36d6c0b387, 0x79e8ec524d832589702bfc62cf2797e5f2d0e6842f5b85aab5ad06a9c0bcdec5a0170d125d7132178bfcacd68f26dc5e2d4c80835f8aea37))
  ; ((true, 168%nat), (0xdf13624c7abc5fbea9e78f429ca11e2588621176905b4b2f24c14ece009afb05174be7710bec00812872064f2d18d037d82316e942f6544f, 0xdda7c5d857e88d27b81da67a7a3ce13beb6e2eb0ea78c6a8761ca2886bf6035cba8423c216b9dffd1814fd9e8498a09731da969c333d705b))
  ; ((false, 166%nat), (0x8d4883778d59b4fbc031a5745ba68f664be71865f8817dcf037286a20c3eac8d4a7585868de56e0b43d3c8bed2036bfd3becd965417ae561, 0x8ff0fce4a2c38343d5b364b302faf550714c03ea9b0bec9a1efb862b48f4cfb935bf4faa9d7bf82176e70f30974a09eca8ea7e535e92b6a9))
  ; ((false, 163%nat), (0x9a3204e3604561574f9555224f0e36b47448eb69884ce25832d942cb37c734e569631a5b13caac83b84759e3656fe5ca8709c5ef434d5420, 0x33e02b2e24abdaf0c2af111e0b3e65aa4eeb67d0d7c527e0f580ecf4e488dc06edae2718aa59c7382ab2ee571cc6a0c5278494f89d29f04b))
  ; ((false, 161%nat), (0x5aaf46602a52dda0cc51067813add7e66b702e5d083fab3a96b534caaaac7685a8d82eacbb635aa6f28586cd9d627493ddcfd5e4b391989e, 0x450fc4ef6cca467d9c1aa1243f9dc249781738386d4bd7c3b4a6c20fb52df057dd1e8753f3af2b9890b754bffde4225818cb0321cced3ece))
  ; ((true, 158%nat), (0x65e513d8a378765bb6923178d9555c86dd5b941f46bda0582397e6ea2c500e97d8d27b65e7da226be7d2f910051b7d19616ea24d5c86023f, 0x3ecfaf8ae247529728f53c5a9768ba96b8200fba5f7ef6edcbab9a398460bad896a2ef97a89d9e1132d9133f52e1a9bf29bc453ae730a7d4))
  ; ((true, 156%nat), (0xf96f7bbd93287789281fe2d069b1e5976544982ed09a6c34a3726cf728399ce942794f743c680ed8bbc22c22ba25ce76a278a48021981111, 0x2e2db82b11fd3d5dc323a607103394bed9f1799bd379a662b726a2c76a8285dd9f44b487c633035ab7f448bc0791982166656155bb1914dd))
  ; ((true, 152%nat), (0x19609cfe280899d05e3f295b580c480b9c3dfb10322f3cb77201bbe9a74bcf8286ea32f7c7b69c0a638dae83157eefb5af595a5fc6955fdb, 0xd3a144d4c888542cc4c4f38884e1886f6e2c1f1d6e306b9ce4a262b603ed56b25c786dd537c437370ef17dbc0f9574c7a7565b6e954ae51))
  ; ((true, 149%nat), (0xc91b1816ffbd83aba2d8359149356aad1761a23ff0cb247f0e5f8b590c3f882ebcbd3bb676c4680b4293acadbbd84a2551a562428fb4be7f, 0x2e6c70433c7ccc54885b10f04cddffe027532bb13d9a3759433f745a5ab7b71b81e3ede441859b40f9f33347cec42d0ad7765c86fa7d1615))
  ; ((true, 147%nat), (0xd500c39859158cbefc7ba419aa7df62528d4b677cfe7d1a37855f1c225eb30992ef1f17f3cae955278720eced165022f21081400da549467, 0x3ef8a6b395b00fc39b621642caab50a75c9d28b1e8f22fcc49a4cec89f15d6ce7201512298a18261008cf4a9ba2571773f57581f7717c7c1))
  ; ((true, 145%nat), (0x707acd17c1fc7e919cbf1406d63c137d52a075c6d662549fa5049e7b03114067394a5bac9f4760b12b0da471034b7338b138545365093e7b, 0x17bf294af5faf1b0f9b4b9f1909b04480539c208c5868e04ab5e4de96c57b9bb2416d0c3da52c974241d836d9b922e06c0a6d1aab6729655))
  ; ((false, 142%nat), (0x29154e0e7348cfda0f4e39b30494ffda6fa9203072278fe1d80ceacaddcd4331550094a84d8e34c8ec10b9c22922b76d8c94aad38cfe1a96, 0x9e42d0b7023e30d131c92e33f5f5011bfa9acb61b9da6ace2a76955a38a6f1e66d97228db2ff3cf4387266f80c89d7510c7dc32f871c0d6f))
  ; ((true, 139%nat), (0x75f8cebe9344d6f353437eacb9e130715335d29e2b3cdd892ba73d3e17d7b166da620d3e32708b91a04371946d86b464508fb4ad3d106c3, 0xeb04c5043e64bdd818045ecdf050e319bee33580f9e75de15c6af16cc7ea997eaa06f0dc7fdd7c8c6f48d9cb794985c884faa1e3f63d6b5f))
  ; ((true, 137%nat), (0xbf2a0823d79fd71b67b1034fc023bf716dd1d525eeba1f4356e7fefec6943e34ae286a682642a8091bca5a416ef8a316cac8438976a3ad14, 0x1418e4f31ab2cb733583c46757a0650dbae55a0234524507b16815f3ddc5fd7afc5dae97fdaa775b07066804fa33b5daacd1075ab73bc4cb))
  ; ((false, 135%nat), (0xf314ee7f1a5729b65e1e2ef388d78e81d6ac0f779a97185db3229bb27f2d11c50b1afd52236ac71248ae3ae2b4d176f83b51868900eff706, 0x4530988a96be77db91de4e044534f34b0021c63ebd1459274059110ca502a5bf725ce58d09ef51f78856f3260749c135a16c92d8a255b183))
  ; ((false, 132%nat), (0x1b06fa2505fa3246a6693859c5e9df236223d93d5283be6b1ac7a451f31322bf7553f27482431eec71db8c302d7965092d644b4dfcfdb3e5, 0x2893dde251d130b83257ca9c6ba1d7a335192f9141c461c9eea63ec94d36d08639133fe0424117fa6dc9a6ebc93b5348aefed3675476be03))
  ; ((false, 125%nat), (0x72fa3f79e3e09b933b4828edbc18b9b076aecfbfcdc4bbc396bce8a1eb381b08e5ee80446d670ae92b5067992cf5b405d7b977d6a527e23f, 0x48efaa398eb952d1e568850aeb8f4b1197566d9372ec3c5e7a10a13e3ddd3ebcb755c536c23dd97829e85f1f140505a7a61c8cb4d65f3d34))
  ; ((false, 121%nat), (0xd06f0eb787c8a9c1355e3e34353805a865b042d354cf5a980c1dca5dd7e584d1e2fa2a9498ea150bf12c15332e1ea553d18581d346bb5c94, 0x59c3bc0989ada0eb315d9b3e53bb0273f63d3e6f05b88cf2ef273373b9b7f8ecdbf21f1cb9a4f7fc84682dc3b8b90f4c5d476b11fac0466b))
  ; ((true, 119%nat), (0x95cfa4067288b9575bb950f5bc2cb07d270f4c51fff090325b423e662698dab5939bb08af41b7ead7b7ab59384bf378bdc64e2d2233873c3, 0x10d09b29ad3ccf2a17c58c9e1fb8168cf7330a1730016ba4b0bb2edbd4a9d0e317de9ce2bd058bde75f564e2d8f15bf9097a2ed24c09b8eb))
  ; ((true, 116%nat), (0x987a836c5858bf4e2524e780e82cd3072c567ddfa91750bb57ac3363f3fc627235e1f559dff1bfdb362f85a691b31010fd9976f804139157, 0x81508693f40fc0ab21768f6369c2cc9f10c613daa79af932a729eb0c5c49e2cdff4da3e6ab22c600161d1850430c56e9bafdeb41c8fe060))
  ; ((true, 114%nat), (0x19b3dc57bbed9ebbae8ea5ff43f06c1512e8bc2527faf340a912e93a5db823c565b3bede50d80b19d385df888880534fbf86cd112058dd1b, 0xbb06d04d6d703e94b191e13d3efdd8c3e2951aa184f85ff683ce469a7d6df6232bb19c5b3be48c74871f8bc7a36f53485bffcd3a35396577))
  ; ((false, 112%nat), (0xff3230713eff85c57ff7636a0d1b3f403fc0ef47e6f0da63b8763961e2ef6f54ec5c92386cce2c93552d12e1a0f0e3f412c030951a949ee4, 0xe10aa380332ff1e954efad009a81d5cd92faf2099e34cb3ca40715f8cbf648b1c4fc64f6409f84981382fab792023eb7c3006826eb204d6a))
  ; ((true, 110%nat), (0x960dd00748545b4e8d6344c85afe5962984ef2bd4e3f2041adb2312b773271a3579dee8aee7356e5203f08b5f1bf1a26fceb7cad07082758, 0x10420f0c68d73d3a3e6fb31dbcaf3bc5a8fda0c4b61b49e540dc9e2933351d2fe2f5c9f297abaafd1cac6e0607d50dec347db33626c36e67))
  ; ((false, 105%nat), (0x5c447c933a02d43dd2223d2f6c87555c4a410445b77756f079c1781b45c466d42e55d57e4bd1797bd95fb245dfe2a185e92e02b3c5460b1b, 0x576146f09e24cebfe1dd60ca8893999b417fc715fb5e07c243a4b9c15ab315c80a220c74782302ce24826a21b162c904c01ba245fdf3fbf9))
  ; ((false, 103%nat), (0xd20006f19a4067e2b7303e9b2ab469f5e53ac11c249ea1e40f1b9f247dd55143a844d64578dda59db5cca808bf7f751a5741b70b447cf248, 0xbd456c187f1ee237f8a67e9eae613fa3b4abf7ea3d1c2f98a18dd38f4adec16bb4fd0436a5e04c62a2206e638618cf2c5609c7951c78ad97))
  ; ((true, 100%nat), (0x5451c806e7466f819ca321f592a96c27c597d5a86dcd05df6be0066ae3f1422a2d05c9ff2512c4cd5e1fae3991c30d94399eee078fe087b6, 0xfe8210d78ef85439dc2732051762cdeca766fe06373e909a461a44605ca9c51c725ac62f5a13ef38dab73605dec23b7031ab3102d9ced1ec))
  ; ((false, 97%nat), (0x71fd27135ab20bafccca53d578679a35f808a43219ece0c248623432bf2aeb08e0460d17205a1a4611c6b0092801848187844c9c9b5bcfb0, 0xc9e52037bd68e9de7b4d0cc921449fd7e6054d5b213de731ef459a82d63a3694c1730d319853612631e48263a0d62323e3e0de8e10fc4225))
  ; ((false, 95%nat), (0x3e47e71869832a514728ee8ff29e0493d95c92877a19994715e9382a6e5b44d11063e9ce3f87206a08f0efef09fa0ee5b969714b14fea469, 0xdc73bb811fa9830ab8b4e88853f304fc227434d5efc83106c4a8489a6ff421ff692cc6724b1c60f96a9d9fc1c6d20883cb5c065315adcfd7))
  ; ((false, 92%nat), (0x35da0198f7183ce1dff993bed2412e0ad69bc8a146988502622747400385d34c891f2a71713e1ca3c9a4e1d1cddfe027b80cf7b23fe54e17, 0x798afed4c403d46bbb5f0baa9690fb02928f9f8fc3d44e87dab30d95fee3440c7f8fcdfdea36aed7963d45f177d52a1a7f8d823cd5ca00df))
  ; ((true, 89%nat), (0x5c5101cdc524794b3bddbf3eac425ccd1b55e137d410e3ee2cf156916eca372603618f0b4d950572f6a2e6e25cdf200a50edc0c393c3125c, 0x7f61cdfb07743efa395ce2d52aea29312274b6a76f48c2eb65c03ccf2997da55ceb783072851f7971c689ba188b3373610dd8aa35594a3ab))
  ; ((true, 86%nat), (0x196c42e3380dafb510aff4e826f89162d192a16dd067ec7c8025604f97637949d48f3802ed6256c14db6c546fa030496a77e1254cd0eac79, 0x937563f430993f3acd11a4ba8efdcc627741ca0ededdff552809d67dbd3361bfeb32060b4a75f0cbc683ce3b3a677606e8d5d35635a456f2))
  ; ((false, 83%nat), (0x58921f6eec07230ad3ebc9f9ebcf1f0e9081a4be4e899bc1994c4e8c84260503d4784434fec0e6618a3b80af5da03a00a08c848bd936c399, 0x1ee9b8bf36a501d90f8800df6be87542c1e271a920e73087d97f2131b9ed398dbb0aa3b8d683c7f40bd310113c3bc06975bd787972699e46))
  ; ((true, 81%nat), (0xdbe19cba24e65ecca7d7b3ba3c3f2337db83e02ff5df8ee6148ade07430e7a3ce436373c50a94d26def45d5e877b4e451a2953eac2f7c28b, 0x759e50012e85137d43999ea416569bda6a4e4f2202a2ac9bbfb65ec7ef7ae73cec55e9e8a2878094f45b4e6018bf318f721506402abbd437))
  ; ((true, 79%nat), (0x1779cb169f4c329010e1a6b3227b8021fcc9b105373c6421111601c0f078361669343d89c552e5ca66a1d5901a0a5ae921622ef674dcb97e, 0x1bc96b14edcfe19b055ee139377c2365fe7c349e4c118e97a9b75e99b76d0c7c46ebd1dba1cd74207be61eab7eae8986da48e16c2a32861))
  ; ((false, 76%nat), (0xc81f71f0256e1c5151e1584aec6c33c804ffb87f604c1245d21fc2047fba27ed0dcc991e9fc313ee1a5d4c19a0c42119c359ebb892195fa, 0x7c87ed728ed9da9977a153c13a75af6ab4cb9d5c58701bbe3c9d6d78c7e87c46d498e42d1ec10631819fbde14a14104eba1bfefdf38f5f17))
  ; ((true, 72%nat), (0xe77e6d16f160b08db1e5c7b393dc8ce6ea4ab163ef05dba412d838788ce49b07adf439c742870824f145d2d9d67dc7315ebf198dc68c04db, 0xad85177e9f27c05227edf2ec2e8ad2559ebaa88ab5410a109170bcacb00f6197439b53e5d09af357930f891c6a15380bafbe0141ec901da3))
  ; ((false, 70%nat), (0x6163a613d40f5dfb4295243f6e977040fdc325c74a927afe5583f00b490881d31eb4021dddd4d35f09be9568664d1bc85fe15ad26c736fa0, 0x6978cd23a860d47254328ef9c77201c642a0e7aaf374ea6ecdff7c46faac4feb2ede705ea0ce18a0c4d48f843fc141579c806fac75ef591e))
  ; ((false, 68%nat), (0x5ec56bef083275a9d7c714b1a7c83cc43bb24231b4aae20ea3d479134a3840aab7699d07a0c488304c70f2b5d7bfd0d75949ab33ac3309e3, 0x2d1f3d3bf8316497c8fb16522c3c4f6f4e4a1ad27230c53b41467df8bed6304bfa30d5055edffa8d0b15fa7e574e6e606d18c479c03fb74c))
  ; ((false, 66%nat), (0x4b203a4c5202bcde7891c92ead4955b2217275046c26a23db4815bad42166c5e051ff45dc44ed93b77f54b92c682a4f896e95462ad3acffe, 0x9423c2f02d33918c9a73a99b1c85a805933dc4efeb675ee5eb9e20949ed4bb34da28440aea4105f3d14c90ea3f0fb957d8e06bc8a55c0d))
  ; ((false, 64%nat), (0xa2cbb31695940c5b861abc00da669dbdb4b02e9f27850759d0cd23def09d01ecc31a6c0ac40d2bc430b797118b5cfa6f75db07cd0944c659, 0x45cbf5c2018dff90f25c3a11f1f88fcd333eee7e6b84f2db5c57cb713012a7c5084000d44faddce12d193ab5484607503bbdbb6c1938dc80))
  ; ((false, 61%nat), (0x7840469261c2c8b82aaed6975bbf3bda7609b18dfc77056604f824d3e5e68a8781303c2b4a2d59b229d46e59525042163bfe33a9fd265104, 0x7de983c76b865848f9027a1638fe70ead090799bc46600b04e5a648a4bcf45daed7c77aac6fe57c9c988f202bd4703bcd6d33d8aeab4d191))
  ; ((false, 58%nat), (0x284e935d9c104edbd719a4aca82612dc885aadb2ff0e884f77c87403289a67b578aa07e1a8b49160b8d2de4a6916d1e8b14c7fbd75579488, 0x2ef8a271112724722c79b26e774852839b2125861fa3e1a8935e4bfbbe3721bf7a9b93999089d9eaccf22cd7372a58ce3dbeb3c106c07577))
  ; ((true, 55%nat), (0x23549bbc47a5803bba578eb8070626483024116ea25878d5c77d473cfb53b103a66529ec0ace5c83e6a59912c9a5afc095071ce793a9584c, 0x8899efd5823b7a8b45e5a450aa4710ac46bb59a5e3916ebf1bfe55818cadee7f7a26259ce4dd30bc5e1f7c76cdb4f1717b09d4ebcadf1a13))
  ; ((true, 51%nat), (0x7483ec0a4b8fea35670cccf740a08282095603de10ccfcbf7f3341982b36dabaa1981db0c7a5b5472d07371a35598f904776e4f60fca4f87, 0x2432a734167c2ededbc85d072298c0c15e339b7b26c8470d394d780684551d88a897811bf9a9d73310ffb6fdd331dcda88699d8487cac84f))
  ; ((false, 48%nat), (0x396116de13dc7ace75efb79577dd076da78d56bd5fa6873ef8c4fc556a943e6f599ddd29706bd2016479d8772b408a3c718b9344a15e679f, 0xb875147a2a77b0e354bb57daf2179e6af35840cb9fb938d7734a0e3da3179529437fb080560fbf83b2c6604461250615f7e9f1a37b30dbc6))
  ; ((true, 46%nat), (0xfd876b51ec1b5c25380636cb846860c033111aa2b9f53071f323a4bd0c27c958fad3fa15221c00ba665e97e111908cf479261d8e386d8cc, 0x8ea19e27135ec242ce2a2fce812fbcab2124732cce9d201fe2710e97fd4970bae76e01464d7b05f0830c5a74e0670b418ab1b47a12d6a9b9))
  ; ((false, 41%nat), (0xa2aa1b561846b2a96a5155d73250ed0201334729a16440d009a97ee06f8e6046be35fb39b6acbcd60b4e1edf12378ba803f5f6f973f8639d, 0x57f35cf00bc725b0716d79d2e03e3b4d9c7e928dc7fd4926dd759cce7b72583752f744cf4df0821b441527f72cd3f02d4c9597c1a726a294))
  ; ((false, 39%nat), (0x1891bf390db3c857a4392ffd6753e119a8a5c0a2d07c294145e150d951d811fc3f00ea809cc06e6dea6f6e21233e4976347ff84b19cb6ab2, 0xbe0895422805bbbc59a640fd0862f26a7576998670576e9935ee04cff540a66c063134e997ac6b152c1747033d19688d7f44334776d060c6))
  ; ((false, 36%nat), (0x4698d353c109ab9d2aa2f2fd466879b4f53220e9741ea847f655bc02e8ee66393f32f3ad35ae3bfdc3c8f8e0ee20f78fca961e790b42898, 0x37ddc531e94cf8693eab89dedb886ca91062450727cdd1defcbb1f7560f7344f6d0d63baf9a27c662fcdacc2a954743b2d31c558d0a67db4))
  ; ((false, 34%nat), (0xc79e8a09532476b656b8a763c08602e2c363692ced8150bba8e64116d28d2069e0d8836ad0fbf5fe63bbba3cae6ccfcc34ef827dd18cb111, 0x393c80fa79d8083f8c8badd47fa5227926cfa8ea33bb95ed2aea29b4103e6febbf50c4df27c5abaac032886c130aca7941ca0b8ab4381ba0))
  ; ((true, 32%nat), (0x515a163aaa55775579f51492f13449f1a411563b0bd4f26ca9f930083203a5cf85e7350287df6f389de106459d226bc6936277d8c0ba8466, 0x6bac48d059e92a03727f2760ac502ad0efc3774aacc53c8fe336e0176e0cd8eaf122769f3b45953bfefdf3eb0e92f307f1d2e7c2c974a65f))
  ; ((true, 30%nat), (0x47731f1777b2f50133d084e59483399af9a188ef55510c6f2d40dc274ef6fe2b9a085ad5daef1013975b63e5c2f46c7bb59257235831f09d, 0xdfa60b3171e9ee64755f655362da2e0b8b7da1dc9b0545a9ff43dc584a8f30c65cfd76ef984b7cb6243727eaef13b5d4c8440c831df8cfcc))
  ; ((true, 28%nat), (0xba56018ec6329659e446e52237a20961e419d8efce27579989017c6a7608bdcb7c59409fde26af8749745189bd179980c8c2a8f98b3a72bf, 0xd9d21688528e58990a84aada9128fa6cc01bbbab2110e7a8b3bce107e52701042ac1686053c40ea1dcba0d27acf92f539b0bd17ec0fecef8))
  ; ((true, 26%nat), (0x75dbf54bdc156374d1001cbaf077ef73ffc4a07204771b66cc623b2fe0029bdee3b10eae45498b1647629c528d6c6223f660f135894c82f9, 0xed45518adf8b81db6b8b50834af643ed46b84c9fede482f41e8cee2a77a58aef94c505be6df4c05b5a4d5af49fb0c3d847d9e4213a543341))
  ; ((true, 23%nat), (0xc791b3cab21beae88a500b47e2b412cd3640f3302f455875b794eb182b95757a81e4a71d1c7936631d5485f513e12f277ede7e8834d599d3, 0x660fbc68abaa7a8617cb72420f8bba1dbffc0f44981f1d299d33ea4e7669611c3d8f3c8fcff6b91f702ab882cf9e3945ca4f39ccf912ed49))
  ; ((true, 21%nat), (0xaee477a71803ef0cf3c2f0b8da9a0e148c7677bbf532aa160b362cafb6b322664d6d047c4f96387929151f73def060a5235f5fd51e7f093e, 0x8c70f44da7fc92364829e8ddb2cee220a9cd7e52245bcf199fb4038b7167387a0fed2f995ed97d4c2e7273831296600a208a410a04858dc4))
  ; ((true, 19%nat), (0xfd1ec582323662b7181cf590c046a72e3546ed3ec05a92bb9574232d836d0ac28adf89e9a24a0deeff4494e8918aad2ef3d386f197220f5d, 0x8dd2d201d7dabc75cd4e64d656404e09631bd7a517f5fa514ca5d84923b2f5bfc111fd1ba9d5e6b198c10b7757700c8ca8df1d695eea9c5))
  ; ((false, 14%nat), (0x8c4976aef2fbaf0c84f17ebe777cfeb64e3e1f50bae88cd4e6c48e4c157b8c81986326ca80f8725940829309fa893b66497a246b929fca49, 0xa74190cfde7bca6ee18e9ddf2bc199ecab547177041b3fd73b9c78692d03f5e2c066253c6476ac72fbed22c63470cbd89f33df9f62507477))
  ; ((false, 10%nat), (0x4acc77e286dd404c25028deb534037dbe7fd265b1a1945dc4eeb95b69f8250735d3ed2e1afe37460bb768385e9db55f2f16bd3db45875fd8, 0xaed5a3ec387a798ac33060727795aa8ba226a05ff9f9a324bea9be312b10061d73f3c716528be0219eb721d2ac6f7aacef4f4efda1df8383))
  ; ((false, 8%nat), (0x75d3c2ae4193b81175dc1adbf7afdfacce5498784b1330a15b91eb5362b678c27929f0184c769183c5f0763d2c85d6133d4b62f2d0b42792, 0x4b3b15ad53a4283ba2a71974f1619215b29351042c5707fc9327577fb5a44a184d24e55fc53f612ba851d2517bb57d872d28073a99291eaf))
  ; ((true, 4%nat), (0x5509e9fecbf2b8dd1e52c04b7ef8bf20517de302258cbbae8a98d46500cf7f72d287bdc8a1b3f8c2753775de7a4e83a78c8204cab832a2e1, 0xd751175b51b24761d2f5242ebbb454d4b47429a259e882b7a5b88087d972a8695f987b7e9c3d9addc3fd2252b62704d3f75fed1f5012b1ce))
  ; ((false, 2%nat), (0xebcd0d153a6060e7badbd18dfc196e3e1f630a18d6fbeb94ca6849719fad56d285ae9d14e64007d0939623be39dcce22c7835af1fc41911a, 0x1cfb383c8c079fc4abd8df854b8f3732a1aa3aa015d04c7ce136db1e9b69aa1f9f47718ce6a90ddcaec808b3377223ab3643943816e36bc0))
  ; ((true, 0%nat), (0x9c544c84078e77123b9bdc36ee9e83149c7a8543345c0ae68a86b0502a4192bb5c87d33da4797e802b5cac8e5c49238ff30948c77c53da9b, 0x1be09a6064131bd9b2d78bc4462b63d041a09b7b8daef3dec620b8b4e523e58f40c1f67a83b8e00979da29c66a63e3c45e4a7277fe1e813b)) ].

