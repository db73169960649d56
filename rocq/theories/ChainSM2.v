(** * ChainSM2: N times the base point of the SM2 curve is infinity, step by step

    Written by tools/mkchain.py: each doubling or addition of the base point comes with its slope and
    the quotients of its three equations modulo p; [run] only multiplies and compares. *)
From Coq Require Import ZArith List Bool Lia.
From Verif Require Import Curves CurveSub.
Import ListNotations.
Open Scope Z_scope.

(** q p for p = 2^256 - 2^224 - 2^96 + 2^64 - 1 *)
Definition mulp_SM2 (q : Z) : Z := Z.shiftl q 256 - Z.shiftl q 224 - Z.shiftl q 96 + Z.shiftl q 64 - q.
Lemma mulp_SM2_ok : forall q, mulp_SM2 q = q * c_P SM2P256V1.
Proof.
  intros q. unfold mulp_SM2. rewrite !Z.shiftl_mul_pow2 by discriminate.
  change (c_P SM2P256V1) with (2 ^ 256 - 2 ^ 224 - 2 ^ 96 + 2 ^ 64 - 1). ring.
Qed.
Definition chain_SM2 : list step :=
  [ Dbl 0xd6a6796a27dc312621ee1d7807d53f6f50deb90e13e36666ba6451403bb1c3b0 0x11d6cd80f81a9b5e9badabd304c2519d600d3f8b4fc759d131c1e2e5c0ec83c10 0xb3fabf3fdde018ae8b11c6c6c230d119ab7a3586127dbf7325ee158cbb960de0 (-0x1e380dfd5e1b5e2882e2747670d8a7457ae3f364a6717b3578c57493fb0d2b0d);
    Dbl 0x17e021789ef1ed9ec506f9ba33bba229384f476f5c75b6707bb4d0c32e74636b (-0x4f09124c394fa03cef9d066ed39ebf371ee29a6771c9f23670d82169e1bc2c39) 0x23a0a3e463ffc20684142caa30690db7211c7346977c77eb50b4561c8f25ac0 (-0xa04988a7d8bd1088592011163b1877b16a3712bdbe2746cb993e93b5aac0173);
    Dbl 0x65ea2030ab7144438852944b7c35697255cfc01dfe1aba9d4fcfe4fa492035ad (-0x12c8a8773f350f11e9d9e0d929a9e07f124dd891cb837406e06d0d3b579fc0e82) 0x289293856cdf92909040f1428c3d40b7bc88c227a8296c2ff05baf3a35cc3fd7 0x35e070e389d282d30ab856179080bb1ec1931edfe054b6ec202fc382f19bd34;
    Dbl 0x3cd69ab3144bad2d8d82e82f98a39c834463428456b2208fbde56366d461a775 (-0x136b802f76f3329dbe0315700a6e3068a4e0f0660b006431b044a43e779107703) 0xe754c6b00daa5ce53237ee442a150593b0d6763a9f6f57755458e4244e8921b 0x1f75581808aea3797fa74c3c7f3e98844bd03cec16593ad0e32270ede0de07fe;
    Dbl 0xe7898e699636224c4d62603458e31bea0b320c82b10ead86029143510cae635c (-0x18a5e2cdd4bc15ac6fa5da2935a056183fe5b9eaf39a961f797fd2b7def60793) 0xd16988ed1abb4ef422a5eff217fc367d4f900df08524ed1d00b9210a968e142c 0xe13e0907dd0b7f3486d951310b7bb8f94f3af29114b0972f08830ee2d293258;
    Dbl 0x3763ac95cf9320c99a99ad110d56564ef1bf8c2d451dbda31a2a214ba88939be 0x2ec711777ee4fc0ac90cd17b70bce34f1d8c83303e31ea72efbd1efc3611e435 0xbfbfaf75b656572556356acaf803817ca044688aa3f08d6761f15256d6cb996 (-0x1892a4e9768f79f56ec0b43d2611b9df18cc298cbe94de365d59f3e0840ef44b);
    Dbl 0x6e6f70c3a8be8c5b61e72c47f3c7e5f0d4d0242497202f0584fa7b4953f79a36 (-0x5b7b8a73f8fe2867d2659b72baa4d7ce24e9f2d4272440c50cd67c7a69b9358b) 0x2fa3f56b4fffd478cbb5d3ed09a040c576141c0d98b4112c94707d5479ce2da9 (-0x1d8b3403c75babb60dcd139b27b76fe1b30d580cc3a1cfbb64b3c98527d67ad2);
    Dbl 0xbcb6587d806fcf667717f655cd067887f354d2b4c29deeef4581b0765d5fa542 (-0x1d8e12a851cc5322343c470af3f0ef43d988af04cdceb72626321db32cab40264) 0x8b1c53dad0c9b147c19d3554c979e307cda83c81a7b0e64c90ad9bb063b17e93 0x7cc1ed46fcdd38f135908c7ac4b3671e10a9d50014db3fad0288a4207657657b;
    Dbl 0xd4a5aaa456573819ab27c90488592d393375b0f91b9fd5f062a874e174a6c46e 0xd0b6ad3b7d9870d5452d02cd1301a9dcc6a6c4508a1b9550122a130a0f826540 0xb0a2cdd649393b59b12a712ee185c77d01a4f636630466a38cb11d05ccd7ec82 (-0x7723998b04dad846202e324692c5e6382c39dbf18e728f01d792801a099cf3ca);
    Dbl 0x4dc1d69a151e7d3a101bf22c2133d0caf4da59b74d31a3ab2335edbb2a135e32 (-0x1992300518552c8f6ff96a6fd58d91ab161341e0f911cc8298c759aaab157fc2b) 0x179e2dde108c5538339330011e19ad8532cb5c68d999278e819299361bf209c3 0x2b2811818f7c5c88a57f73a2621e989500397f7f963b57451a1de10d6222c541;
    Dbl 0x40ca369b9194350acf3a33ce561a4170b481768116730aa5f19b480eadba7957 0x14cc68cec8ec0218563807285cd65be569c789175d6b497b2714d1ff21c71b3a 0x1065bb081257936551a5b98d5ae58822e845df99dd8aff1d641cb02b141cefc2 0x951c95b102558f446cdd80afe60ef331bcec23517f53494e2d9407afd5bdcdf;
    Dbl 0x6d6d126f8d46e23fd32f0760821bcef44aa695756a110963b9aa4ba0b5b16325 0x40ed4277409f893652cd84bf82d2d211dbf109f6c36a0d715f15738970f24b88 0x2ec6102be1669bacaed6d3e7b721526fb86ef11d8a09812a85c5d373c0d86135 (-0x1cce42b9635144cc72ed23a33b55142b1af780102ad7c902365bd66b18a1ff88);
    Dbl 0x813c3539413a42fe03521182c718183f8bbb696ff749263fbfb71fa8960981c8 0x63853226e92424006871ce3cfa6b4c6da5126607a7a1c4bed0e33a4b64cfd9dd 0x413dbbccf2e1c8709599b25377aa6490c35588f4271a53b50355d3b70b61d1cf (-0xbd93c194450249c3a76fa5d42667b98823c40123fc6fca3804807b549dce7bd);
    Dbl 0xd13480efa48ba0b28efb8261087639fdf13d640c9dacb6efa113655b23892024 0x6efb15f43cb1b3499260f39e48769e6e6fe06f6148fd787b4124d2673c4e9720 0xaaf6c54c97ee1f49b51aaec8464ed695f0ea8e3a24f3f6b4ba37aa358f93609a (-0x65d852843f31b053f07ebb604f630850398c62d80c61456ee23e075814591df0);
    Dbl 0x3f09977322a8149b84a8184a02b91a4083f6ae8c64103b895fffc0427b60dec4 (-0x232c95216f077ad7c83a3913d22fb364ac22c86bb853fadc9b7948765050e5d43) 0xf85b8e6ba45e9872883075923bee3454274c58e48def9e1cce8929d24afc134 0x20fe3c6234ef7e03fcc8b74ac2917ac3dca7caffa5e32800ca3dcd1fce0885d2;
    Dbl 0xac053077d7237b1b8cd074027756ac563b22d22bbc92c2518c129f03ec056983 0xb29ab121e0a4c7d7e05e8e815f7a94c95ef768b739a92310027f7f08fa74f855 0x7396f93c6a8a36d344c938f95dcd411e99dea03be9a6ccc3414ceb03f6529d32 0x1a148e9eee377edce7d35d74c2252cb32a19e2a368ff6e0bc4f660a1ef9388dc;
    Dbl 0xb5894398730cca57f8011326a745450f06162af359540884cc633ccc800ef7c3 0xc98d0c7a8943012cfe8c4ea7a28e1dd7304ac433fa7518d4c820f0e343aa82a6 0x80bb632f7e6fc401fa178cf2d44aab1d9a806a800b9408e5cc9f6817732608d4 (-0x69ccd25f845cc23f3bafe711ca49dc04aac7d049e90b19fa457a2be62c45f86d);
    Dbl 0xd602f967bb4d28bb66b07d0bcbd9faa25645ce6f28a49693cd4dbd2ce6d057cb (-0x127f3ef599f4dd7561e55ec205f01ac92bbf356f0e9432eca99c778a368025328) 0xb2e8f902f8a7dab545a1abda3723927667e5acb0d676194be3a3d2ac4c5e28ee 0x195567ff6721f991a65ad1c57337521ff732ff419f8d84749912a0df5f6d8b42;
    Dbl 0x944cf398d62b2be63ef29bfff301d19c98378020a8bc9200f5b62c487f178a8c (-0x1454f12f64960364abc9f1f17873ef3106df6f9f7a055ef8097a36549cd9aa7b0) 0x55e910ca9815a703dd5afd087aac724b03d4946814d5739aac8d40d9fe400c8a 0xcf223a306fabb2bb453e1817a11ec2983a072d915552f1d8e75f905167c0aca;
    Dbl 0x670e68597c83922f43573d3d98a9fa0d8d29af8d4c002a51859ad70ceaf5fe31 (-0xfaf12d10ed4d87f65cb1b89cb8b083f00a9a54b354664ad61795bb0189fbd41f) 0x297c98c7c000eb407c2e40e32d43bbb5563a0662529f35f13627a71f8f8302f8 0x1cec0ca54ab05356abaec7109931bc8ea142a1e2552470984aecefa9411e3add;
    Dbl 0x537410f8908a7fd2fa20f4a73def0d78cf417de7dafc8558a850de73f2010c76 (-0x3921e83e2f0922fd25b35f7eae24c3ee2b2de74fb216ef688e74eed7c0f06d38) 0x1b3477a0ab514770fea376b74f7946adab622e71eae47b7722abe42f1632a125 0x1264f3ac8a2959ab1b0aed4e081e511b5ef30d8171a8f422cf5d4d137ebe5910;
    Dbl 0x40f10156fd150187ee831f76c5a7f707489161150dfda3dfd0638ae1f3dbe63e 0x2d7aac5172135cb28521ed3b962677e1ad26c809a9c7f261a06b16bc49625068 0x1079638f14ce31691c5171f6f0dc4ad02c903ed634c29e541f3d9add76228f3a 0x54d0236ca2253d2dd2bd032cf561c5a0c186cf764e26bb0be5b8f7d74343305;
    Dbl 0x9bd9c37ef026903ec095dbf514cbbd29ceb6db21153ac9100e2a937794c51610 0x9c880ac0ca1afa726d6039eb946d70d3f6ab9e7bb843c3a75ed296b04954bdd 0x5ee16bf9182de0d1a6c3c2aa010c6f0371a5c75ea71e6a755db9b0bf0d675a99 (-0x836d876a0f9c4b5582fb8f10a759cbba794d07aa8eb64be17a7997106d9f7d8b);
    Dbl 0x66e0882411e2c4ab488b64314f986984a8e0acfd62e0e0b411c97aa57d24538a (-0x20bc0bb74518c2c1db9f23e2381555546d3a5451522c434731415183bb1891760) 0x2957b16b6f1e0b1212a94717cb2feb7160b9f659bca89cb90dddf0ec47b4e21a 0xc9dbd53583697a84be4d8bd0a422eaf8738107f7c2ac92a10bbab45a5f5514e;
    Dbl 0x5bf1a07794ca7031159f0983307fd1c49d61d5ce4feb6d655ef89f8fcde46eb0 (-0x14f10e59566e37b1eb3e701d02e5d7bd2b3eb523853a921c93a6a6210d57ac7d3) 0x2105ac24aa896ee7833f8f91961b9242535e79436be03090e2b8e224d353c7cb 0x161c9a31db5edfe86c6a4a69b0eaf85e38e78423113c2ed02693ac1d48130b7f;
    Dbl 0xc43376cb81fe2d4e89d1d374c6b5a69f755c82356104d1c063ef265072f48d59 0xb45538b2e467dfa1644964816b97238b11f33f30671ea90d19da3b42319a1012 0x965ed840c1a21684ced8b38cf81eb17b7771e8855062ccf709b18f0bb9b3f57d (-0x431b6deb0a3df93d73b5e6549d186c7f05182b7341d0d5f183de2416a5270942);
    Dbl 0x819d74ea3f702c34480a802136cba39096fd43569336664cb7c1aafa0d434137 (-0x217ecc12c950a9b6d273b8117cb7f31e085cd7e5433d70c7b1a5d4fbe818b7d57) 0x41a010acf2460ca58bd9966dd5f6951e509aa04f74229ee6367ffa27b5b29092 0x1ba562b4e17eb22beb7e59732bac17045dd0fcf029f04d2ea30c21d385ce7b82;
    Dbl 0x798f9f73f5b4e06598a0fcbdaa3cd18fb335c4c948c97b8d1738fc429e2f19e1 (-0x11d5fc93117d53c9714e0f02d8d07b4715ef8a6440636240e95519b6c63b159c6) 0x39b9154f5edbd13f75b8083300d51baf6c9fa514355c135d13c373baacf6e3f8 (-0x2301b2c5affd40bf03020048a5ffd9338be08ba70254d2052c2a9d42caf3ac7a);
    Dbl 0xe88cd74fdbec76a77403eee9a0999c54a4c7453845bca8a247237bd17548b6b (-0x273b205c0ec33c6a6bb3e69e3b8c2ceaf00a882cf21d68a81370523ae30f75962) 0xd33f93bdc64bf1bfb7e6e4ba2c7a468a2097e91a758be5fa39f15e61582eab 0x4a4ac3540c99b4e09f4443d762c0759e6d56344f324afe48b7c9f9d29eb43d;
    Dbl 0x422a5ae31adee3511eea5b1294421782bd3c733f45aa977d5627b32f20fdd256 (-0x20bc7b9cbe45a8aab131fcc6cd04309ca26b97da9048c61090a8228ecd342d873) 0x1119dddf1dbe1494ea3b4445813ec0c3f3588ae9e5300fbc422f45a313d7742f 0x33081ad00b2e5bb313f33aac6b210cee3791f08fe3d2d1c67c3be5282ea8e230;
    Dbl 0xee97bec7a0811d36a0247119e85782a6f8f9f8d3396266057726c6c6ccabed16 0x88ee0c9063a4c700d00c67c1f5a0fd979eb21e69531fa048d420e51a34ddff74 0xde5e80aeaa7ad93b4769accaad172428f6b55284dea1d002d913588a9292c545 (-0x941f556bcb528c491fa0caaada1fe9c87d117d4d1d73dc99b502b0fa9539f205);
    Dbl 0xdc584a5d3426080f079ad51cbd2a4ee1a562ed0b64a5c2d3f2baf51fb05c6450 (-0x12ebd0077c1be3e163c890c6fa6317f477e131ca7c7a0957941481fbaab8d8578) 0xbda7de4424f71a586f487751e1acca205a7a3c37904463704b0e43afe2d1c4df 0x6ff1c10438f01cee968c66fe7afda444692347acbd91d372e0981712c074d948;
    Add (-0x1) 0xc4e8ddd319ee8c6323e304700600a1f2f34bb522a5e26509de6867dd82bf2853 (-0x7fb43f3f62cf7960d92ac73bbc9e5cb52ecba5b12e9ec5ae6c28f0938222ecc) 0x9775677ea5ffd7ae88e38f09ed57c9d1abd43980cee60858e62b33929427d90c (-0x1085626e1e3a0eafd7dda26ffd2930db372e7ad182ae45e5b45b7ed88cc983dc);
    Dbl 0x7e2fd54c389db33cd30375dcb5e99fade456543b5ed6f2243b3176f9d954491 (-0x465dda47a7b4ddffca0271617286b8fd2703b82f32345364b4f3f394045e2e34) 0x3e331ee749a31227101af84298d17256bc8c62c54ca374db120604e6fd5a48 (-0x29c473534c351e11aed1ece35736966d50e06e48c90e5a247f0652d13616325);
    Dbl 0x2690ecf6b43af311735699c93f986fd4804cc09be0e4a9d9d5ba34a2e17b8d4 (-0x145c4060f8c350e97d2667b5bd506ad5d8c10ad65135761d33f453fb05370d838) 0x5cf5864b43364eae66921949290b7f45ce925b145792685f0a11c754be4e2 0x18bc023ca1c7a4a61531352a004b3aa8d1b569fc01d0f6595cb252d24c49026;
    Dbl 0x27d2c1151afb621c3525986ea46610787babe9b8accf9fe3b7dd2b2fa6792e5 0x3827356fc417f3791b37b52bbde631688a60e85551e3429ffab6041fb09e0f7 0x631e455ccab9513d528e2be4c7cffbabbbc656c155080f70339794c917ab8 (-0x1347b606eb94d87336906b024994e02b94bde13cf898eadeb57580c9725f59f);
    Dbl 0xe487ed7c8fb37bff10b51bd416d7c105efc73f59cce9bb43cf1fa3e679ce98e9 0x2892b3b3192fbe0b25ca3936f08fe0f3ae96510dc418d94662bedc03ec4a356e 0xcc02673301a98a0bf8902906375502b429da28d9352a81ec17384e3eecc9eee3 0x6e4169c9b7ee31e7ed316fe3f548f45ef92890ea95ae7a3aba51326d22dba39f;
    Dbl 0x380dbb2fbc44e69528ebe954998df7846c55bea84c185014ead9993aebbe5b38 0x265bb90ef8df4397414018ae4f63290dfd8e500ee0effc66547bece9be09ab59 0xc4602a17a5c0c757c0944444258d6d7e5d3fd8877f7327ea938e91e5acc45bc (-0xa6ed40668e8dbad12a11e572dbcb3d27894f90dec30031577f6f2e6be13eef5);
    Dbl 0x31052c606fe3d5b2446cc754164dae57e246b66d77853ae7a9b460fdb0322ad (-0x1ab4bdde8e2a329112b41aea3d709675673c5fb10c92049a2fb8c47f9f88943f) 0x962fb17b7addc96bc131872afddeab939d4cc2173371ef98bb5d0c7f9c344 (-0x26ff166da85e37347d89b87c29e5ac0b1c075225da0ddd35bc062230d104926);
    Dbl 0x30e391c6aad318e2f1c1ea43ca1bdf09de044dc8954318fecf29f996a5dec5a6 (-0x2eed1e8a35f7717b0ebd4eb35d335dcaf078ba7280c37a0f237f61b2da1f59a4c) 0x95620f662bae4597294fa23678a6e532adb299c37f1452604e03c595aca869a 0x2380a160235105226bbff4e70a2810191f7b9e2125f4bfa2f4a0928c2ea9e562;
    Dbl 0xca28616940474cf176583ec2e50a0321a205d04660442aff578689bf626059ab 0x65eb503af18fb3f4c2a8719e3986af4ce71658bb704a8252678643ba48783d1f 0x9fa3c0194f0949ca3c315c7fdebbf05c16453592c9531f7bab0536cf889e23fe (-0x910eaaf49d51d0c272bbf916d0993b82502a601f655ba384f85237c6a967b4fd);
    Dbl 0xe694e2e165c8a995e883a65717cb04e43aba937577c5d6c3033ff8797d45694d (-0x2611b8ee22d241a8d1706135cd37dd554bccee9c9c13d98545cb8e969e5ad5f82) 0xcfafde44f044dd2cc204ff6e729fedcb6a75866f7395618918f09a44ba80eea5 0xbbb908e66f0e0d6b13a5ec6ab6e323a07595d27e6258daa62f7606720bbab66d;
    Dbl 0x99fc93ef61a348aee9ef34cfce3b222b01d9f26b4c7ce0291e8c9a3350237509 0x3a3ce5a94a367dce081bd1da47bf2a9e5d4dcdd30574b222853b7744e69e2877 0x5c9fe208141a125939ae4ae54b4248bf135b0d5c58169b332830d7760b7230a9 (-0x113ebf0e8c3c49bd9e6fe51985bfab8b3b5199443471cc6171d7998c95044e7b);
    Dbl 0xac30ec9a9d39efcb2ee933287363ad81bcf3e46d34a756502bacea439226e4dd 0x46531989b61159f90f13c78fe7a2860bcfc88864a1bbf6938030fc2f3392f5a9 0x73d1c749cbc006811b5e36e0ed1d7e463100fac8460940cac212fd184bd98d1d 0x1b611064d4666065e01445b0928ff11ced6fe7cc0f1c320e34ba103df20552c8;
    Dbl 0x7d54c15c172f09f8d6500a5bb635a2f08f02c29790e3d4f449316d41cbc174ab 0x1c4000acee15108c77e80cc0e412fa3685a2f804de26af718c884f70f3459aa9 0x3d5be0e3a27b0394c803aca73d8ddfd2c4f33a05566f8aefeee922a4d2e7d3ba (-0x34ffe1f3f4fe68e3cf899321b299d6ed2c5412b909f3682b06bba97dc289c3b7);
    Dbl 0x145a8476a64f5ff75fd98783bfd45c54ca504c1b08f3be9765821ca3c245bbb6 (-0xcdbbc521883103c95e549521e783f17fa4b24d37eef969a72282b5e2c52c7cd8) 0x19e44b3f3922e01acaa2c176a83d34b790d6f4810134400a3ae56a46731132a 0x74bb44b006fef4ee01794aef0230b7713fd36c3b4d50d8e864293a1b804f7c1;
    Dbl 0xab11738592ee1d3b92f3caec86518464ed7b9b0f455a6f0ecde86fc5e77f20c5 (-0xc8f0e1733fc1751798e6274d8e8e67df6540ed0775198b6e50a9e7f709a992d) 0x72505185707937e6d6b6ca1fd0ecc02e6ef07fa602e03903139f607bc03cb958 (-0x34a1bbba22389ff70f741d53f30f5bde514e475891fd8c75eb80243c5ebc2e48);
    Dbl 0x9f7fd070401e58f0e64396a5277e16321ccae184d023c8908603fb22acc6b977 (-0x11a3da74a6612c9b9b6e2d65e294d1977c7a06a888076daf45c1faa12dd5a4fc) 0x636004bc4c1beebd444cd3f69da7177b3d66598d30f5ee23fa098db3be0c0a9e 0x3885d24f5689eb895abc76abc186462f9e58861065fc15275be75ea8fd47e4a3;
    Dbl 0x490db4e497ea4f50836cc0a498f0cafd1f8978e2e944eeba0993ed20467026f7 0x7505e6b21e22ed44f979a04d0955ab7b78d7e8b403c9cbebf70775248b958742 0x14d8d1e6528622aebeb441d94a1112d72dca5541e7ae4a4600f70c76e209889c (-0x213ea59bf8c85fca42afb4b9a39ade0730369bdd398f4cfe759641c628b0443e);
    Dbl 0xd3ed42520e76dded4b672187b379fde035e8eb5589ff29f651359892546a514e (-0x7e9930132e35812da975524e0c1b66a09afbe12d815ced0e80d3dd1f9471f43c) 0xaf70f737d0661ae67375777d0152ae39102b776a2393f403250f7d6ac333bc72 (-0xb443b89aae704c84ff8229a63fd0baf867a5e7cd1eb81f727722225bd321253);
    Dbl 0x86976ce441bab36515d691fda92d118509cbed37468381b911c6e7e0bb01ae53 (-0x10f1e6633ee75d194676c98ead9d5fe9beeaa9b1c6dc2c59e6dde379ab9b6c72b) 0x46c2df90df2940990012d24d397edcc5cb98e9d6d83d0cfa74cd483bc45c75c9 0x12da1b48416237b7bec04e90b0be22b85cd1f83714531dc2bbe2a1141ac25395;
    Dbl 0xf83d8466fffe18e667040a2de851666ccc1c82633f5c9fdae794565145aa5398 (-0xa3e91d4a27bd89dca40554a3125a8719628bd555244e9a1e9fe549567dce86c7) 0xf0b73f50de43f0162bce7f62a65edbc302b7810c65735017d09b8610db4d0cd0 0xbb299f9f4aeb7adb65b1f6ddd1649a11915a32a82dee17abffdb06ae1f52d3;
    Dbl 0x63c041a1355b887bce0a14b1f89764b653c040bfd24892dceaa8c982c336d2a4 (-0xc49234265ee93b2c302ec826f1164363f08ec5442b83a371bca1d65bd890f3d3) 0x26de432558c65a9e7766c75703e998f16ab5cf72e7177d437839fc10c4f90a43 0x77900e8eb89fd3102cbb59ae4700a411f8c46b9a841f5e33623a353baddc87f;
    Dbl 0xc92ba16f53e47ea6f1e304be39f45ef0c91c6938923beded1c07a0a50162edd8 0xb865ac4d28cccae549431beabd53ee644856d78cd624fcc97c07c55487b12d38 0x9e158af11105c08507e34752be82b2ca3c98622db48bbe3af0e6bb98f363a0c7 (-0x488ca70f78711c095b4889760f1d4ca29827783b106af312afc3f85af78ce460);
    Dbl 0xaa3e7413ffd711f3c2e82fd155e0ba202d612f89c70f2b53297297fe4a75027e (-0xe1aa852b23ab1f0ea89ff7b946654a05d56f1f786b691f38a15a95c3f21b8aac) 0x713701676f52b2d6c22138141260504928816a8c04a726df19984fa6855b3d9a 0x2455ecdc05c9ffffd22c484e5290451a0a5c72ee02cec405d40e1355968239f6;
    Dbl 0x141b9f6f9588b5793e87912a9f159d164ddfa13014fa039fd0841647b9326313 (-0xec732ab80237ce902f8e1c249211be4465c0afa8c045a8d311de60f36f635b0d) 0x19453e475c707788471cdd0e06e7c5c065969f7c0bd658d52852f7a77198bbd 0xa77dc7c9781609cbea74b0c92300473f8b08a6b6c561d4f1684452ad82c76d8;
    Dbl 0x399d8d19cb23939ad04490c13a17237e2859a715ce52dae76f40aa4ade4dfd70 0x14767f3816663faeb1e9a2959531e8d3f35601bc30005389b10ea6d7f85fba29 0xcf789cbe8d5f7886434c2c969aa49d3f71fbeaec4451dea1063707e777dd37d (-0x27362b6efcab3e60d1466d913763eb36eb3f3af2d53ccb96bfd60c6a8d450dd7);
    Dbl 0x43ff17ec9d3a6f454a1c597f5390c62542ba25fe8394605dd52afce84b6742f9 (-0x178454458f918d6cd922647f1b0b2078721b9becc91d13695c11d32fe74759e6c) 0x120f84b697f9b4514d1a848793842e1441bf141f1bcf9e54588e3c685b92a73b 0x171034778a6ca15e14bd9af4f5172bca42abfe52be6a7fc96e54620550150c73;
    Dbl 0x21494906ffbdb2dfe07719867d793b70b13acc53b961aa99c5bf75450496cae8 (-0x66f98761dc046491df3dc07441653bf0d4bcb05be11057e1523d7b10a1ea7b17) 0x453f9ce8d15ba277505fa16bef17d0ecad7b3ec527f5b9ef6452966d421d856 (-0x111ae9165522db057b271ac68d1d5865d28ce45cdf26acc0559cb54bbb8bc7e0);
    Dbl 0xc1370ec38f7118e68ee7f2c42f707405a78f0dadda1daa9194f338246348bc94 (-0x1c3ac7a1e0e96212ea5f1a338fc0e59da314887ff21377fb4ba35ae5247e78b17) 0x91d4101ac8fe335354ee09b11a489b7021a254425b5fd7d80cbb4920349469da 0x63cbf001c4121eb5cb80541793dd1f9efcd6ad0dc5a19ae2b65b68aa481a6d86;
    Dbl 0xb4cc4cb690820d1ef619bed0b42efd1403db8cf265d8f09c5a91bb40934a8308 0x2af28c0a2ee66a2fdec9ddcc030441d60809aafae552a8e81a822674fe4823c9 0x7fafeeeb94da08a30a8e10fa03719d0b688380dfbc4560d3c602a2eb93ff5c39 (-0x632a65eebca621722f265ce0b6ef83283e14b38ade6e4ec81060fbfe7cee5b9d);
    Dbl 0x31b5213a0c05378af73ab37347781979aa815f7bf9160434b9fb2b5197a9d363 (-0x25bf92c9239fddcc47e8f70160fe83af6b7392c4daeceaf7ee5235f6814dcbd7e) 0x9a6d6e042a5d9c6cb0b678014efa4868b9890ecfe405ed03865ce595e049b04 0x2061fa61013e978e8c5141e74e4e5363e5d04703a49ddac90b7924cf34a5a95f;
    Dbl 0xe5f502b67cb48a222866c5cccac3ab2f91bea360fe6138f4438d537c47f0830e 0x177a73cadcf1ae994c963f24b00f4dae981159e5ce8201818eca78cfa8be07f08 0xce9041597afd4e135c42d70107eeac6743f726945ee8013c71d2fee9551bc4fd (-0x338aaa46dfa9f20e83f906e2a5d1fca0e115b70afa9952da2fabd5506d99ce44);
    Dbl 0xb0b8a02e88724bf50c77461c7185d1b40335f799ebfa4bcce70c3cc814221259 (-0x4652f8f1bc7f7bd3eafee764f09f071fd2b895064c0fc3d9a7fd5e35a7c052c8) 0x79fe61671cb9e1296edf0c67006251d373b911a8c360ec43a730bd93a8932827 0x20800f5fe2ac1971d9da64e8bccbe49aa88e4f08b94e2dfc3c7c3c658cbc6ceb;
    Dbl 0x7961977c8add46557cdc45b50ba12b7fc721ae2b8e1a85e815654a4611ad8164 0x3e03116c6888aa618bb87a83e1c323ac68609a459079d2171cb7fb48ac3f72e9 0x398d66681ad7f6fc12511b0187ab4daad69c3158dd229167c49e8dacc586f283 0x1da4099a47ef5b3a985bc5741612ee8bb4b2c6df7253119564e0e3f8b46325e0;
    Dbl 0xbc4f4a546da714aa452a9c59210f219d2ff012a0eb328275f8bdb131869747a3 0xfcd2d472e15c2395b0e4dcb7042f4c1654b5561da1c417ce93a26659fb78e50 0x8a848dbb81428c71147f86bf7921dbda021093885977ab5f60185c31261e2a91 (-0x5624de25f171c80ab7221268bc58442a2bddea65ecb20712f931df40ddba4331);
    Dbl 0xb41f48593342e9ac901e1816c8952ba3505d404ebe33979bbfc0e4add10ea4c9 (-0x4ff7aa032d7cd9c397c114c9b6384cc380e89cf4f2fdee61a67541909efdab3) 0x7ebc019088ded04a1d8f4f19335119090f3c797e1ee5b9a073faea4b5d2655cd (-0x22a6edf07a2bbc09acf8af56f9d886fab7a34f8d4ca8ae156b1536c50164c240);
    Dbl 0xebe88ac074a6d6bd7ee172a0c89a718c3525f650d8cf38742516f4152628d2ed (-0xf54c07c09cc28940254d377fc679e92c1eb5eddf3b2a4c9752bce2867df588d3) 0xd964c1f9f7968d1224ec768567431d05eac78307fe8ff67e7a6823a800c4dbe9 0x1759600ba80165d2eb093125e73991c7b7a24f488385d55c9869ed4f43f63293;
    Dbl 0x89fa4690c9629e0283d37643a2a4ba50925e0f12a77b066acb2084fa55a7d48f (-0xca7ea775f3fc5726cd0d8b83b68e18669cc754d58d42d34d79c4bc07490c8afd) 0x4a5dd435282635f591ef2896332543217ebc1be1b9852176547d96f646234ea2 (-0x1cc10b4093e2a878a797e5ea7786aa5e41aa3dc0d044ae2ca192929cc62290b3);
    Dbl 0xba70a7a1234a6ce963fafaee1070b0a359e837dbbb4534692bf688e175ab0de0 (-0x202ec7dc331c3fe1496ff800debccdce031f0f526105b94ac0c6422ffe92c21d0) 0x87c7e529c9d28e04bde5abae69c436b31f4da8a2dd46dc2aa0e69b637bdf9089 (-0x143037a7aca93383fbe85b585e07437e40fdade1aabff455ff0b99d0a03f23a6);
    Dbl 0x7605bcfa1a711cbb49ce4b84b3f4707bced0fb1a48216870bed98c92557cddb9 (-0x1fd86bb09ef7ef37888cb8512bd34458e686a5c45eb097ec8ff8d51bd32c3abfa) 0x36694a57b40ee46d4544521e1fbda97acec11be411298a7b55941b25f35bed9b 0x5cc284bbfc41d8499f8b854d8aa7e3ba4681db18b74be1be51372eaa1eab2a0;
    Dbl 0x1a00a7759de7642e545d3feb4e00c75665e0571644c8f73f0ee98c8961f86fe9 (-0x25cdba8ffb21f43d3b3a6bb97d53f6e6ae74bfd92e79b9e05903400385784257f) 0x2a422045441cc6b590063d8b1c4d42bced32f126f1fcbc93432b5e65681cf3e 0x175853583d16f671c865e03c96bcc6b19a0998b6fadb253e7855e0808a357317;
    Dbl 0x7bc5f48f6bf5cf286329cdd6c8e0415e0043156799bc0d1482218d8705541131 0x1efc28ce4d2ed15ac3557a9fc6f1347219077f2b6fa4b82b4db9d7ddb6035d7c 0x3bd7d2145bf3e59c5c708317f4f3a6bf1267b7f6cec6c33c6475b973d539be7d (-0x703e0c888c196457eabb2239e953020844ebc6f8f2bef919fcdc7fa83edb2d77);
    Dbl 0xf6f477fe4245cccfb6084957359e3ff15cdecff65774d9581cd6187d5454bd80 (-0xe7d9e1acda7f986c899cc6ccdcf69bef9f54d5776ce1820384211ed5dceed343) 0xee3ac0128a8598e4a0641db01bff2c12fc6f9519ba578e8a8400fff710592225 (-0xf89e31284e8f42333ef2d9ca6f1bbf79ce032a2c6ba9ced8c1dc6187b0df7f4);
    Dbl 0xe09661460ac68a61be10440f9c7317efbc377eb3cedf18ebfccf8499506a17ae (-0x2ab64e419182fcfeb39d7fefb9728484134974e7e73453f0905eb3c545bc77200) 0xc50782917aedbcbb0bfacb2c616165be5df766b76af217c2b6d40c26bd595e5a 0xdc18410ee67acb58099cd0e6a03e08ffde5e5fb1eae78aabdd0eccbdc2e13ac8;
    Dbl 0x6748fe9008d9cd9f2419c8833c500d4f3aeeed3869922d094769b37d1d5801fa 0xaefe96803f5fe7fd37257144c1efcc1dd87eb84dc3019ac06e9d97e97d3720ad 0x29abd1a83ef2323c20e0b4ea7b561ef7b84d7f7b769706237a4c965c90efba5f (-0x257ddee893b1c4c025ea4d956b938098814c623aa825fbe67acdbbd44b32e994);
    Dbl 0xde5c4f1e65a5d6014c89d9381e85d4e63b3ddc21f5a0e57f96e23b274a26f40c (-0x2f11eaa6731904fa2883d01b729a808176d1f937bf21f20f48e53ed4d5240788) 0xc1243a826fbcaf36d6ba02dde757375c6de1af51fed2250c0efd4554f9722d93 (-0x3d28e4d032925b89a3ea68f8126af5766b97888151f5595d1d4a77a820816c6e);
    Dbl 0x32cbf5742868f7e0ee845943d37e52fb4f2071b5a848240d1aa88d035562b85b (-0x12e405a0b5ab055d0d8e7816470e9f6110f03d7b8445fae8bfb6f406a87612060) 0xa144e609b6cefbb27490d61539381bdf1a6a899370a9829f92f7be664214c43 0x109054980ff1661a6491cb06a5e1f642497cd9dc621640828c6226cbba5b419c;
    Dbl 0xf30214aa9337b1f20c80c49a0ac0402971c4d0b9ae473ebc7eda03e55d8c8640 0x16acf3e6b862783c9f339e917ca0c531eece9d70302f105498b9563f2d593fc89 0xe6acf3410e7e1499e871e5c0110e14172781a1d6a4a55483c56da76208680d49 (-0x265d53ac03333a9a6537c307a970d014e82e208151a3806363ebca0bd5a68fba);
    Dbl 0x629417006e44c0ff6cf7818cdd7a816ce6230601c82e371e2107b015fd6d6b3e (-0x3704d488d111b7ff63330ea6cb41c21ca7c613baa0282b65c2e64b3c9a80dea4) 0x25f5b74714f2ee5a55e3799f0e7363477ec5f57bad36669b885980d7a2cc58a2 (-0x25caf166de48e09f6057e2b71c272e443ba9d09af602d27a812a9a7046420280);
    Dbl 0xa839e84eea5ec215d6d1940801eb7c2b9c9470130782146e95feaa57e1f04f2d (-0x1e02f028944dcd60866998d495be07a8749e21df6cbb40bbb084e5a0f1c75593d) 0x6e8c0e01481bec0fc7dfe03c01e0866877c32d34cf37021810670ede138471e1 0x14b578a0268287f07719823252c255a49b79bcde7fa21f84a2d6ee94437308f3;
    Dbl 0x3f703be7156627a86d3cdc8a6840a6dfec8ff77ef2eb04b6a3f45be51aa095a2 (-0x17717cc67bd624dbfaf8ae3c15f3dc4e2af6d805f599bb02208f6defbc9066967) 0xfb86eb04477c40c94086d6e20390ebed9457a477620c9bb66750e2bf7318534 0x10c2427f1717c5daa9bb86410dec1734252c4100137e6edccc36d7d4810f8142;
    Dbl 0x29804a1e51b5f31e6536cb97ac18af985139ad2a72903bc9df3978190148ed6 (-0xa5667e6899a8b904c16323d5dc155ed183aec98b32f4cca0b9c429243858dfeb) 0x6ba5807f0ade0af3cc5d77fbc07c38c80699803c3897a6a83a97a6a553a09 0xbb1be1cae55fe616214ac8a630e6b19636717d6b4fa9732060b259ce8e2f17;
    Dbl 0x5b31d0a3b224cdcadcd9c391d93eff9d6898e821bafbe8ece011515b204e47a (-0x13076e99f89ab98dd946d781fb3100f720fd1130b0e2bb4cb3e569b77dfc9c04) 0x207c740609d73a932fc181a97ac0f9ee1f80f4931a5a235de357285080625c (-0x117f292711bee7c0c86906945a63f5c52b55f3abe8bfdb26901896b57830c6f);
    Dbl 0xa266b80b2899cbfb8a1ca0537d6f24971d956ae33833e4f8a3bcdb3eb491736f (-0x7b6492e5a855c1ca2b57ae315dd2ae2d1a67b936729d2baffc509cb7518d1c7) 0x67062a25b39d35b833bd09bcb650609cec3bc57613b36a1a2128518cca67294e 0x131ece3c04ea1306a852f9720a9e49c393974addeda1d041fd73fddc041b5e58;
    Dbl 0x2e2777d8d37ad79eec9dce4280452b9d17b46b9bb21fd77fae6dbcf8be3d8afd (-0x1ecec38fc75939c35628a5434dfb3ee8a5fc4d817689358482d66569ed08cdda) 0x8523527b07e165442683b1533f40bd1ea61ab86b85998347c2f4e78e50be3cb (-0x1c5ad9098ff2b7b0bf5477fb312421e5d266e5ad07a6048125ea4afa62fbe400);
    Dbl 0x2f480d2c827137b90b0662e52fb0b516595084399883fcacec77df3b3a4321b1 (-0x1f87c0f68869ddf4012183ae8e2b6ff4ebfe30b35844598d42f4ac5f39b50af9f) 0x8bb891dca58083fad85b58c12dff1a23c56cc8a9345898ec156956f89f89070 0x15dd48e217255a2a9b242f1f766b9260107b3f1caadbf718b60358aa569d59b1;
    Dbl 0xad1880c7b16da70716904c5ecea9ffb5da3fbaa36e9bec69b373b7c170818c88 0xbb7ee8dbf7b39354113b43abb2648499e4b48912c0d8d51299a2b834aaf38088 0x750a2066c111e5e8a15ebbb3ed63c95d98804c2f97eede1b43dd73b92c8b1bc4 0x297779cfbb0017701177ceb279dc986bafad8c9fba991c5cc07dfe1de2a69783;
    Dbl 0x158187a1da3d023a3397dd123015c093af1b7208ec269adc565f4e7be38afdd5 0x2ab4904005ed20510bd2acbeebbada04f7d379a3cfdeec3add3591ed1cab6f7 0x1ce81ca88969024e6d79f6aeedd1772ca2055c5997593d1c99954320ad746a2 (-0x5faf820a1d6511d994c072daee691edd2a6d481e10ca55d0941a003fe91d833);
    Dbl 0x7359447353eb88a142adfd9d86b417c893b9c1f2f9580b7ab76e013869440522 0x403923047726afc61c16b40c3543d7a98b11880f3423b3f4ae0c93271e19374 0x33f952a07bdcc1afff9a7020e76e6c1fea4a96912a9a1263515a7708a2a2d7ba 0x8a2fea1fb5fc9f1fd642b5567c72542fa94c1fdcf0866e8bf7aefdf80ce9126;
    Dbl 0x656bede9651809ec778be477080b27dc9a5f357eee8b900e32e4aa8d001ac07f 0x41e7da851ce5149b4eba215cad16743c14ac701326d3328311a722b623545b17 0x282e573b1027cb1fa235fc379ec70fe58997858393a43850fa746ed2b2fcb94b 0x59f22ab2a8d91883101d4c9f65188d7094b6dc0a0008aadb41af1b8dc0a3ba2;
    Dbl 0xf79349525201f3ad82586751406d79e224f572d1cd41bf9e833feb233f9e1a3f 0x4925d6ad1572deb91188e179e59b138026c5845bbdb86995b8e8f6612e08d14f 0xef6d8c3b13378bef7e802471d2806c180313fe05c60ae4f577fa0cacc5048bb0 (-0x59bec12a9198de1e021bc42d8bef3c39ade551dae23789594d1dbcfdb358f590);
    Dbl 0x7940686220da21b77f6ea3b35a211d56d11a64c9ef8d3b33735cf9af2929803c (-0xdd3ce8fb877e7e912b5dcdf62666877f216f8011ce237a93dde971a71bc0a8d0) 0x396df2e1581c742010f0ec843c59dd187c6d638fa4a71c6fbd5a8a67f59f466e (-0x170fc16614eb72e16bfcef3bab04c4977f7be154ac777d81f2b9191006ee41f4);
    Dbl 0x80200c3c248f9e2ae20f8f8c76e5d96523b37677c1c06d1d18c5df7a32ecc740 (-0x221b16addc641f6faee97c17888d0ebb3c13cf9b96bc4aeef47447fa29e894e53) 0x4020103f744e83e0807575aa6c6f617f3bd498c49c8ece476afefc6ca4dc7428 0x56a0013146e65e4ba772a298f489b3e815e1edfe6038285bba18330e7f6710be;
    Dbl 0xb5c6d1eaeaffa518428cba3b3171684669b894641f42f95b7b6c8ac81e91eb24 0x12c5f45b182653138898975e3d5d391a3baf82041bdcc5aa7a14f0243c1c3e0ed 0x8112bf4014e52d6fa32ae4958674f94d208506c811589622a22e0e39f798bffb 0x1a7d1b71501951cbdd12db0fbd2b25c7839aa97c08b747b42d13ab8680c52070;
    Dbl 0xc2b4cc36d505c74446c3a36ea3cb7eb62b527934030f873daf0d3383ab0869aa 0x4adf4e81c7b52a48d258f1f10570aa04daacdfda9473843a1c5496052ac725c0 0x941685337ef64696f781ccb723e1607b2bfa852d1c9544c13b3a849ad0f68ba1 (-0x38f073ec18f95ab0a5879c65d29dcb66307d0fdc4022fb945289964cc95a3917);
    Dbl 0xddd25a6943c6400952f3dece801f6cf379f69c76bfdbc4e54e50cddef064419a 0x7627e6f1f313f95a570814115c7e8cab1e3ab2da46d5b75644c0c832dfc965d4 0xc034dcf2f3da87b42bf82383c48b3257b4e257d75ca893544027c529559fb68b (-0x6b602c82e3c79a82ec6f9b3bbf110137552f2d7b35153696e5fc5be997f2414);
    Dbl 0x648c7d8f8558101d93e6702765576d55da83554ad77ea0a5a60e7458dacef949 0x417e75161c185475257bbc36d62efd4ec3b33be4f468ecc25766f60bb52d107e 0x277e0f31da3a2cc8d3b37af65bf539d94d141ef8d0a85f4df6130e2066b8e852 (-0x26fbaa34ba083469fe6bed0ca574f6452de0b9d371e41e14bd1e036e6b063ea);
    Dbl 0x6197b6ff57a8a1f9297da6b1338b69b72d7594e132ab3c561287a213f86cdc7e (-0x398cb327edfa176271b0f7e92fb782a2012c6f27eb71cfb381ee1828b238b50c) 0x2534529709ab95987550c2b10c76767c7f7d4f068846e29212f5c89b1228322f (-0x230df1eab229246a9babb902ea73f62455b3ec615465173bf2aba2b1260c332e);
    Dbl 0x6aa1a56088a057311be92180c44da478fb2a97dcf3b181d7e972635bf1554ba7 (-0x12a5dfa58c9c30a78c99692d53c4c4fabacef7ab7f0a2b642c9cef9aeff8f3a86) 0x2c6a43058bd0796d54441848d7916d2c109326e8ba36379b516edbcb33c8ebf0 (-0x75dbf0d2321bad0ad3ae5654b6973c15aa783293b9d137cfc7e0e2813961e2b);
    Dbl 0x9e3faed70fd9c532711b066149f59028fad1a172eda70511b6ee1b4377fd672b (-0xea620b7b83c2cb29f9610ae6cf47be1db6d4bf844477fc6c715df2fe04500554) 0x61d2aba95ea6567a59ec687e1dd67bd5e1ffcd9c1df547aeb415037feb54cb54 0x13656b4aec34167681bdf4038968908a318ba0aabe07c983f4a2078b984ee6da;
    Dbl 0x4055913c1a5456fadbbda366b134bc95b70141a435fa2a7e0a91d8b21abdeeda (-0x16af8f97b0a310b8e72e965183727d22d9c7aa1bc26364e538000a5b888995750) 0x102ae537e1a3b0a6f6de9e40cc79d18b1ded1f482b52d2e6157a4c88c66cfbc5 0x10c7d4158d7a3fd84bdb1f9f622c2aded1920d5f28cf41d2ce29766b1cc2cc3;
    Dbl 0x417277c3fa45acf1ff315301c02bc437b98c5b642b23793377e2e30720d0625c (-0x111a062578ab3da6cf5cfff5ded8978a84cae363c401657463fd2b66bc0f26d60) 0x10bb540078656495651e55542c49c5a998500bb2b1e3883c512148cf7935fa75 0x1a168983df94293d1d2b1a46e3c3a6bc92f49ebf0254ffc1c7b879dd1bdba4db;
    Dbl 0x985f4039ab54a11c21468c14a10cdcd8a1b26b2705ef51dc6b100112722e43db (-0x276857d707247c8afc2d3ae6c674c083bb7a2b9773e09526e5977e85904b7068) 0x5ab13fb5910fca7e9a5c3d92dcae3777b0457c91183bc83d9b36a49c869c4409 0xff21e0b1865c3271b27fc85fbac8b5f815f452f13a608d0428b25314389e9a9;
    Dbl 0xd0efc6b5c667624934aab4e5b461491ece5cb667873e6e95d9d89fce7f70badd 0xc01b196175297be47a7dcd6923e4b32a08b012e01495dd820e483f0ef3988951 0xaa86837cae94a8373cd8b3b04a314a731a48c891bacd06efcbc3a4f0db4aaade 0x78a6768960461eb0385e1fae8e6559569f4d1e28b14dce1a07b1311c10226de;
    Dbl 0xf1556d6da980f978882f9def3fbff2fb69b5f9b215a73c11c184de645d61e744 0x21b5078799e71080ca614a5d2152f6c4ab8063135d257c478fa3cc3f06755778 0xe381f48b363feb376d34a12ad89957f5b6b276c85d757afea9dfa2e44efb3d62 (-0xa8864d4a315c7af418f8ec34a27989298ed212ce56121e0f20d7a6a60a7f2781);
    Dbl 0xb71ddb62e6565eb5fd1358b815626985359cef4b171e6c2e1a5b925c320e03eb (-0x1eff1987b5e4d97daf779f5821b197cd286da63b99c09a27f16ca7b33cab555bf) 0x82fbb32358b5ba69ed2deb4ada1f4b9e63a39990ef1588b612809620bff98bf4 0x3af27b7b4f4661029101d9fdc83ca23bec4e6ed75aa76632e0204d9b5a00a3d4;
    Dbl 0x21c232b3cd4def6c383ab41b9c36fb5571e8d156eab89348392653f7497ff7b6 (-0x9f8b03ceac85b193a8368068f79bf2da8658a6a8085616cd4f7c8aff9b9aa6ec) 0x473a46341efa0b7399cfc9a1b41aadeaa2a78874d4cd3819910ead3ddcb87f4 0xa4f7d28a6642cdb96b2e9aae6b9caa7e6400d12790b19943f3e6cc777058355;
    Dbl 0xb45503d61762077022d70a26d6a7868f0b61744e10bbf37d468ae61b4b8f1e75 0xac873987eefdc3a7c490a46284d751ffe476c5c26d5652b0709d6205fcf93ed9 0x7f07a9a11c23c2c723cd1f05a189c4f1f587f820dbc138f99b20c474f11e4970 (-0x2eab3f9c06064dbd4dfbad298e70ff6dc47d16466a0299376c8387ebe521d2d);
    Dbl 0x54afeb0483f9a96560d4d887e5f4026555a6a53cde20c860ce5f4a348a708eee 0x5f73bba345979d94f9e095fcdf6480316e282b0856e167b2b8023e5d2f8d0738 0x1c03eb1e3a8d7bff1b8a6ee2d8d66e24abc8ae2a848b0bc6a93285e90878ecd3 0x1246b7ccdb1be0e028b2bc68002e212d01e34f7f1376d77efcce287e097ffd2f;
    Dbl 0xb673f6e9966aef5ac25d08fae40ac5cb20d3e6977633040d397b0ee4f1e9a996 0xbc54a1c7be93eced23d767e38677aa92a9a4aab73e01a054fa3ceff52d633ac4 0x8209179c67ec0a3d2ade908205dbdd0cc388787ce269a6220fefd43e6b8fb6a7 (-0x781f427de7a68464b8bea0e2a8c9a0c370c5fb9bc901bdf509604dfcb071132d);
    Dbl 0x2732db797836af30fd5c41f9b98bb3fe51da68df83fe2d8400a94291fac9c56d (-0x13e1792f34491b290bb9ef59160212197b6d623c03185f8cc052ed48579db0438) 0x60088f9803d3507487506e2ccb7185d17ddc8bf4507a1bef4bcef3f3cda5dbb 0x1a660580f166eada132564bf87d2bc36936257ea587830447a7665deef2050d4;
    Dbl 0x2c65e98347a3e031feb8bfc9a93811539d0e138172d016ed906477756c1b859f 0x3949c925f25c1e6c054090fd2bad2e816653c4e2a24829fd1af69fb382646dbf 0x7b330d73eea48f209cb8cc0ae94188b3deed81149e592679a8f6cc1482ad84e (-0x24b91d3cd016020c926ac0516dc2c5b77c97825f2d44c6574cdff6c05d7374de);
    Dbl 0x2e9569fe618ec45478601617c219c8b1e4ea7aee7ba1937d1067b5a828a5076c (-0x1e7c591376cd712091731cee8d01ce57510d7ba6c15591e34b3068cecd3491018) 0x87a094c018990d7c0a89b661a5cf570d671d9a371db084a7ab4e180551bdcbb 0x2252b1f4642e3e70195ecf1960faf858627a7562bddd5a29a377e87fe5d1f378;
    Dbl 0x5f378f560b23d52f7821c7dd1aab3b3ed9cbf9b2e27e1c33e13987494abc98cd 0x2d8a1f7f8c4790a10b167e1f697dd593931113869c0d40bab327a425e584da88 0x236a4870e6e8e76d4131f5b7c0cf94bc44cf968f6e9aba32657e78a4440fe248 (-0x165f4fd0ccefb869cbec673ba84b9daf0a19c8660037e163f882a1276b722bd5);
    Dbl 0x9e8b14e8a420f3a8ddd6af77f86d4b85e7980c3a92ec0905e78da60d7a4efa9e (-0x14ed29cb990ef1bf46c36a21e24f941a5bcd1dbfc12b2d8dcdec9b69b254706c) 0x622ff95f43200efb595c37dfcb303b1381c9ca57f53d50619cfa5176d74872f5 (-0x5278eb5e67f48e178d5086de0797904cd9a4926696bb772f9c6b43982a45343e);
    Dbl 0xd35bd5004c96cfb19985f1f766d1b948e7bf08f0ee752e959373590ac1361593 (-0x1f3660296fb15e085835cf50bfe5323f468ca102f312aaf5246707a80464305ce) 0xae8082104c310f19c40e6ed401dd12939f9b244082b5a80fd97cd8b1428a075f 0x93260d9fc573f528f7490c3ab1370e1aa8a626e53fc439f2428a3358575f2f16;
    Dbl 0xaf170ba2122e3b1eb4a4d88dc88600a26d780bddbfab37c031716f3640e80011 0x2c8777bbd5ef1a263b600d405f05269539046284738e27bdadb30b2a00e96c19 0x77c083fb24425148bba22605e698ea49f82cb7a5ff1200910b4052c4af15fe86 (-0xbae4868cd6f34d16110f571b0a5641fa2ce440f10c8027f99247160b54a1516);
    Dbl 0x6313b805e61801b5820563a0bc315db746efa4bd1b588603b8633e714e05bd8e 0x8f96e2138bedaf9ceb2d59ebc8272bcc11aa330c1484a6a6d75e352f685bf43c 0x265841d98b7775a17d2d0ecde3b11b288723b4fc576dd493764ff76a0fda4db1 (-0xb3eeb20767b9b7193cd6fd4f30c57051b67c5d456f1ce53aae72dadb47477f4);
    Dbl 0x461bc3e6a6fe4e1b09342fb2ac62dbb9c79306ab9c930c51d0e177ba3a9d09c5 (-0x2984b6b0c09d64ac41679a8a842ddc85056f7a6a670b1430beda90e13b296f1e) 0x133332251f16b0b84ab37e54408440e5abbe894720f0f0e52bbc246258a1602a (-0x66b670bb21b730bdecfc859f07e6d5829e11bfbcf8fba6c522524526bf0a8bb);
    Dbl 0xdfcb46367a74d65b1fa650aaf9fc5ee375248ea2cd9466fc0e9fa6df2637c2fe (-0x5099d0d875af397091691bcc4b266229ebe4a1331355c1d582c92d346e92b868) 0xc3a3c5bc1aa35f0a996326ba8694801667fe62d2fef551c85c00c213d9601603 0x5e0ea30a77d9e82bf03643b0e572d8eabf4b96c5acfa345d6fa5a931dbe171c7;
    Dbl 0xeeb360aaa02d2521a8270e2d8ac1192e3e5dc7a59c3baa9cf49e945df718f2f0 0x81e072e4acff2659cb467ac5af212a3b1032e8a4225681588d5fd329ff371bf8 0xde92056e73825f75f14329a136dbe98580e7e1dc01e86eba3793a4e6a37ce6c7 (-0xe58d99600068d24ef46bc3946252450aad2d3c6b74633f37f61f671b54ebe9d8);
    Dbl 0xec6c07469493f58451dc57852deec8fcb2633ef0bcb28e68e49189c51b01dd77 (-0x1d91ab1d8fec238b79d14ab5bc7724912a445d6cfa57222345514f41ef2ec4b4e) 0xda575b01200a7419ed30b19d039c2c53744898fa7eae60124162f49d5cacafa1 0xe705662c883ba25e0e319849b1b2cd5cab40df61ecbb2873d100b93bd627188;
    Dbl 0xbd93e0ebd0522795ca7a43eb70c0d6d4c2411f4b69898a0cdab2285894a24631 (-0x1c417267cae5fdb75eb775af1884b16a77a924fb8e4b19168191bdc9e7ed8656f) 0x8c63af88d26bc21d5b0b3cd97e5b8f2184bd1f53b026919a289c540bdfaac21c (-0x850a8a8c77775e28c7422ff338563dad41d6697f36c31e6a6bfe7d4d86b1db2);
    Dbl 0xdf728dc5d0d8300661844d532ec0a5a1eff2f2297314df527c7ae4555476af63 (-0x18e76f21385dc1fd8b7047bd088710908e5b268ee71895e09128520a0e067ff7a) 0xc308c641f792eb61172739c625bb1313f1a1a18b77a32a6a81b807faaac6bf06 0xf484d16f76e55111d64b32554c30f389c4818262ce0e738bf9a5e45adac1ccf;
    Dbl 0x38869318df4b256176146f8e2cc3282b192c2120347e9842af661e64d92776d5 (-0x234a914271eee3efe1f38840e049df5bd2a3a22f294e59ed4fc87000170cb5000) 0xc7b271940bb5cf9f434dc3d44db67be5b32cce83761864781391afa2ba6a8fd 0x1a4196063f4ef3ae48db55b282011f57bc2d1374a292e42c4d5d5e90063aaac8;
    Dbl 0x7c46db8c33f11a2c6b3eb1fd13ac3e54a59c8220e92694cf2fe6a3adbdcb5f6b (-0x4be7704f53f3af5b9efce5cbc8a70dd0782e9d0d75c58ca37113d4931243e429) 0x3c54b84cdb9bdf2990d1d572a06b14f0a925fecbf12c797189a696387859bfb3 0x216c964909cda0be6e08ded7da442d7ec05d5deadb373e2be5528330113b81e3;
    Dbl 0xb6521c661aeb640a031c01904ddf6357fbea26794c6060d47909a693b0f8da21 0x5e386091d9ed854fa7bd5bd7e77e60dff0738e672e232134e6f9be48e5ffc219 0x81d8dab7e4af4a5f2bcfabf4cfbf38e6c83ed258f6921c618f183461f3deaf39 (-0x83e08a81c3027a5a375b918a6b87068b856ace00b22e4cc0ac518b6d2fce5725);
    Dbl 0x1d78debd10925350cf833d228e28f1357721daa23a52dae95c1f21379c8f6894 (-0x21aa53054557b033a8cad64fa29831503492468ad81d0a835dd29cf4e41f0fd2f) 0x3649b886c31bff61899d220803f2c252b38cdc23ed5c8438cb4b4297d6635a7 0x1332adbd8860736ee6819360030133034f31e8bb4b3422597a7c6053bfb6d46c;
    Dbl 0xb3f24e0a09c656037f47c3d6ed3f9dfcd9aa74e1c1f3653af6e4cfe04ea58291 0x655a8840921fd44900dc9f77cf9cd2cf14f6ae3ef29b49e6f4bab02e5dff760e 0x7e7cbe7a2aecb4174dd0192f36242a1b4d833a9b4b17dc9f857e07009cf5c243 (-0x48cc5034b5f6e37efccd8dbb1a11b033b63b2775f20ae108d0db6432b396870f);
    Add (-0x1) 0x33c87d45b07ac492fc5d3787823749ed67bc414f5ed7bc4b4f4a7d8e5018bd54 (-0x161ad017f3c7eda0d719edaaf0399b6e72c5d4adb544ddea73402991b66cf5e5) 0xa797eedc8fb4a63ff014b03e1232918fbc0921eb75578d3e91b205e0318896c (-0x299abe1d83ede30d36c7e4d3ea2951cf0ed0378e7593f2fe2b4826d4bd78e97);
    Dbl 0x2bfba2bf8b96db61ac66bee994fb06559293e04594dcb626b2300d53d7ba29b8 (-0x1431eb9bc2377ce9da613e346745029da32662521a81ede01fcae3e6d2f0d60d0) 0x78e8004eb85e38671d89e36768d75a4ea4e0ce5480a7a6d78cc9bcad15569b2 0x176cea7b0f7d601c15a16c3f13c26f4e53023abd277a66b60f880cbed1ae33a1;
    Dbl 0x4b943ee0897a6d91486364c451e427b07a224da8161ac48d6b0933f93b2ecc2c (-0x131726ae6b4f3d707709867b677ccb7c6269e3935e2fa14ea240153c99868b) 0x165032b069ee6bfa677abd12e20cf609e3ccda89e5cf9d413252dc66727a8ad5 (-0x346b9f734cc072220af9fe261d6d871e16fe07a2506f3daaf692f42dce6e0189);
    Dbl 0x29286050f5284f245900c6cf9ee78c867667d3c57f44475d88d9b0bf271568f9 (-0x20b661ae94c5466535a3d47aaecfdcae9eebe2357b26f6324be007493c5accad4) 0x69df53832ae4ca2f1df43dc2f6dd10b4e6334347e9a59174bf1ef06de5daf3b 0x86ef05349a4b3219dec5e3489eb98f18f45351b76f84a225edaf5a7d9b64a6d;
    Add (-0x1) 0x7bac945a687dd1ca055fe3dee13e38ae09738f8e79cdb629a3ebd4ca2a91a46 (-0x359230fb86f4f8101af429794d48cd24e356f5cf88ce2f5bddfbda9d8037bd8) 0x3bbf4ae6cb9d444ff1ee32afa8573ae60cbefe93cba8ad6ed949f464d8eef9 0x340b6b049c4aaee5e725b90c2ca94fe0610e4099d7a6e194831009b05619205;
    Dbl 0x44ba76ef058b5d120fe082cb7e469acffbe17eef1707e6951b7ff0201b4b8d67 0x4b05f81708535e61dd69c4ed71b51f96667980e34da13037e2c38938c2c8b4bb 0x1273970017fae73cc2cc6ad4736f5fc41d8630ba238aa527ad20519939f1302d 0x54d98a5441dffd9428e314f8927888acf90964650476aa47036933e86a9f4e7;
    Dbl 0xb9a67823abefec36f9e285c02d05b24d4980c782b8f045b63f5312f7e294968d 0xfa3fc15ae0cdffe6974d5045cea0a13d3f735fadbb197ed9056ec3b25991cae5 0x86a205e41bc73a9b4cc539698ed7316ea514b8639d37c8d515cba6653f1d3899 (-0x23da5daa5cca0853ce84e2f1cb3a80a8c74f098c789fa81a5c268dd5fbba3be4);
    Dbl 0x5ba70a4b4f9283144dca394758035e4deb211138ba4ecc858221999d1471e50d 0x268bc2f22fee5605bc900b822f7118a2fc805264a4d2cbb0da4de2fea7acb115 0x20d02e501a0e2106b8ab884fdb9337aab34a8c8c32ad33259dc9404c019e22a6 (-0x38921f3eaa6a90e1f8142977d88347c99d5daf3038a4788b496faafed59dcd31);
    Add 0x1 0x6957ed981fb1fb73e9f47d46f2201b73bd5f962cf8dfa99916cb58421cb9517 (-0x4e8985cc55ace290ee6286772a3f3f0f5c1661104070a31c13e288dee42c2d0) 0x2b593f1a4f41cf6d80d131d71be1766b8eb8b5c73c3d2f67b41012dd3756d4 0x4e5670286cdec0a7f7f36ac817234c50eb7df64264c5a823f8dff0b046a5985;
    Dbl 0x26baeb3f6b739e218268ebb4bd340eeaa265c517bf18b97f5e6c0ecdc71108ae 0x1ea690b1cc7eae06714a727c11b671b32054e5e9ad0d8e2ceb84dc4ae0e2418c 0x5dc06518a17fc4199d3d7040bd0521352f6bbe2126cc3496d1c998bda5bf322 (-0x13cc4e0143114bc86ec9727fb9a949caa2b64be8fe223537152d0827542d7a5);
    Dbl 0x7a8695dfee0bc24843064ecb84239558f7eb2be52cffcfd0b46bd850e36e7632 0x1faeb4c6cc630bea354f54401a255bb83332bcc84055ae39af0abbe3f232b0cd 0x3aa48d9ae7b36611713a0978a7378e7bf2339903126939ec4544cbb99b575a26 (-0x185cfcaec2cc621aa907879a5002a12ac6926625cca4d1cf418d9b144c62fa99);
    Dbl 0x6fcdf22768ed0f5350c96154bd9074ba9116ea5a5f4067114132025bd9f064f8 0x3ad30a16251972a9409cad6c94a8ce61bb5e189639af5799159615c43ac40599 0x30d43dac15fe651235b21217fffee16bc1b94d39b12c4f5cd75046e10cfed023 (-0x375900a039816cc2f206fb3d5564887d1119a2d6d267cd5edafbef5c78ae0550);
    Dbl 0x4154f5e9cafb9ae398a7a2a4c0b0c9b6306e64e09794247ff13a0c45fc430c01 (-0x21c8b4c00a65dcb21ba3f870e6f40c589d03b1fab9cf683773b9e58fd62cac4c2) 0x10ac411317668ee105b179b06f0ba0432a425e31ac55351cc5ddb9d463c8cc55 0x30a166c11be5210a69e8f8c4a844c4e0ac9dd20c73c2353946dd5604f4147b42;
    Dbl 0xcd92fdefef7c613c2fbfc84f1cb13df20f9d09d1841c95a0e7bb73fe15a0be04 0xcf5f21ece9d13b3b4a0a03178b672a52268eeeb3264623a1a21f46022f0f357d 0xa514bf198c333cefbbcad93ddc64d72f9db2d649def6ee3a56e6c784341e1ed3 (-0x60dd3c225527638e797efe88405c8323eedbe6de734970f87a6e47d5877b8b86);
    Dbl 0x8883da8af0e7d4ae56e59ba4ab85b46ea4c925366eaae34b1331812d2301564f (-0x3687e7f5f5eebd14c4454383b15196c3559d4794307c3fc608a1bb4c06e9f97c) 0x48cc5c1d4d86290da724c6170acb2f2612c02488aaccbc60104993c4a7b27a01 0x39e573868d79529709fff67c40703100a7159979bbbd6c57588dad3462641a5f;
    Dbl 0xafafa0235f5b716b5fca1a242efb763adb01f1502207919c1787e76a4891d109 0x955f5a188bde869171d90562edb70cccc2579b297ae5e4152b0d0936185b1329 0x7891956d297935988b88b59618db2e5473c09bf5d62f4b86306bb52892bef71f (-0x76f01af28ee745e17067234a1c86d26cf784903bfbe87d30a44c8926ad7c97a0);
    Add 0x1 0x4564ddf03def48db0249a32c2b52eb7a39e15f6078250b15a5122fc47f86d2ec (-0x31179c4b3c09ea65a0741a896d1eec0e5e2719916b9bb09d7ae8bf435382acc6) 0x12cf8761b84b93fc060fb4723a79bfb08a1ead00a04fd352693a5043d4b0c17a 0x3d714a1617bc233af44d4d6e8079d6fd684930abd227eae5c713dd86cc3e9c4f;
    Dbl 0xc1fc454b63fe639f132572fee79ab67e0c9a11f5c4e8ab4f471fb43e4eadeac2 0x9ba873f7ab1d4e4149352e62084c6882275b77f7e555e7fe61d19b86cb4d1284 0x92fe5914bef282399acf88b6a10af3962d14c71e61b6e6905c5093e00b8c5efa (-0x8e0a1612fa39027e7758d01efce78fe9885504b9af52f6febb83f7e5c72d4161);
    Dbl 0x62dfa434a38e4abfe6ba39168d371830b500b8ce80c800744e3b28d7a353af87 (-0x17fcb68e18f6121e9aa5f86f292f41d4ea2bb61692bc2521ce8cf774b4b36e72b) 0x262ffd17f0715c9a417ea89ab23b8fbbe6b9e1718a543e140419030eaa17d1e5 0x11cf4c9efac753ecbf1a4a656d90c25c9b0f56697cb5ec05fa543294acf2fa45;
    Dbl 0x6d46aedaa5ed1f0ad80d8113d04b834960e3323d3188a19c8175dbe88e2e25f4 (-0xf2fa88d2d7393525d6823aee055f940d8850a0d78a23e3da20775ffd4322a7ef) 0x2ea5446a76f1e2d40672abf24778ba1d5d073767059a8503652659c50af9e19e (-0x1149fa34aab7af267e5cc28600f66e302cd9dbca2d85defc5834ed4f8152411b);
    Dbl 0x79d4afccc7dba26d54f5eb856d2ffdd760b6d99b8d2eed0a041fa736f800ec9a (-0x151ec75420205b485b198ea93308d323dab4908cdfbfbb235850ce40ea2efa0cf) 0x39fabee372ccff413c55ba905aadf7131c172e7a00ced18255ec2d3b048c574a 0x1c1f6e34b99a0f814c920e69f6c27b20ca0aa60f08cb1819556dc0cdc2c3247a;
    Dbl 0x3448039fa5953571d36657a0bd0b2372713bbb739b68ac41b381f4a0bc833418 (-0x7e1ff754bad4c6b08aacdfde5c9ec139259da522f2b0a6912394dbf15ca39897) 0xaad55baefcc38cfd767722f69f7432ed30221f287d81b97c1a1b4b879535da0 (-0xf3fec1cccc25ebbb864b543860e35712319c1985496ebb142e63567a38a2efc);
    Add (-0x1) 0x5e4ce9b1b1ae2d7a41922772de964bf0da39eb6a3f8197c8c2ba4957048dad09 (-0x37efee734681246ea36a6ffe1b29b730fdf8cb938a7297189d5268cabd076d4b) 0x22bc92ba380eec513dc2efe0a648919269880dac2ddea73e8d2e6396b81200ed 0x46a3bb469f33a3b554437bfdd1330c5ba9662720a1fa79d07b6b516a1f67cd5b;
    Dbl 0x22784469fd82f466369084f4504d678b8ee7023acc006cf32e98fd0362179929 0x24f0c3d07eeff5de97fdeb5ae22f4284d03da33be435331819ae8d6394573a90 0x4a42aac61a118ec2a41869e66cc4c287d30386fa0dcf46f6086a76a136b4539 (-0x1f1b0b01b2129ff38e27980fb0b7094878c97ecbb8b071f2e142622a59cfaa5);
    Dbl 0xa2774b50fd6dbaccb7e24591af11daf0d09a374a6441b9bc4fd7330dceb73e20 0x9e5b058d29e9cef05a6b9780924602799c585e62a74293386f9d8f47a3726a2d 0x671b32ea034e3d76714657d240907e4209cbc657502554060d68ee3a8caf6b6b (-0x6db219650ff1a428a0094241db742133f02fde99d7e87bb8ffa2eb8ee4fd3918);
    Dbl 0xe011bfd817968568f6632cce36cec71d5edf746f44694d68d29dd9f3529ff56b (-0xe3a0b6d1f07051e440ef108cbcda7229b2d3d80339998c0cb5eae22815563c44) 0xc41f10f5f7ddc605ca3c32dbda8d71dc764fbb8ef2c9a297ef7a2b80de5feb88 0x592d5f7e24dce01a4d44e8f6fc6dca5f9ec35e14425c352e5865170cca7d14d7;
    Dbl 0xe5c4db9ef26235d330e8f4ee1ad99f6626b23f2adb8439e15c76d6d5031d90b4 0x112eebdb288a57f8f79b8bf112e2d05b22ab8668907e500d79f0420c17b0718c0 0xce39c84c33a9f85e935d3d1718186b4138eea0f1d7b11ce93aad77bac7ccb327 (-0x7fd9d347643057cfbb9f43832870dcf42725c467627bb19f1485604fc270d7ef);
    Dbl 0xfb6fdd660e94fa72b45faa014e6d309bae8ed9c9d52d5f49cbfe406a9d69db1b (-0x102afa3f7a0420f409ba3c5d9b087503f22c7f8aef4d58becc9ff297cba008ef8) 0xf6f48d08d586b333caa8f673c4b611cceb5e58ec10ad113195abf5b5960a9f31 0x685a9fdc90fa0a230457f584c12383792a51cbeb9a7563748ad08b31e5e5ad55;
    Dbl 0x7e197da066c1f558b902fb5e4a3d56a721dae1b18abb27202e33cca648f006fa (-0x9332ba57a371ce507a012bea6f1e8472a255b85e5af82207854bb22d36035693) 0x3e1d1a33ea3e227330fbaa83d6071dd58f8424882d7adb4d284950f7e7f2f427 0x24aea97126d3593ab19f69f78d13111fd435683f57b330072de03305de2ac69a;
    Add (-0x1) 0xc78527a9def18a8e84dae6e1b83f05d7c682ad7d6e458133a646bc4f8e19d293 (-0x5a0246749d7f8d2f2daeb8e8fd45342f4aa86372735c6748c027b2ee6431e6c) 0x9b8048ecf0c2a7f630ad333878c5ff1c51d70d1c7fefec1c8e06b8a0fcd0385b (-0x24588102cd8d54e7bc290e19411af7f85aa637211422d910f9bbc8b0f71569d8);
    Dbl 0x36e19c9fa7f34e180eb76551eda0449b1015ec30adbfb3fc7f0c907cdf2a1d20 (-0x3b07e574aabfb76ba243d9e9883aad2e64ce963ae8edf34f8037e0ee86368bb7) 0xbc3f4e81716cbcc192db3dd4b6e9b7d92060c49c6308556352882e1f22b0657 (-0x1e30327b69e06a5b4ca0deb77c408aadbed9bb7f21d3a9c943f8f0a7068340a6);
    Dbl 0xe07a00c8ebd9ad3e8755b0e62c10577297b9433a0f9f8807b2eabecdd664a53b (-0x270ebf08c3e9414817b2c2752a613ba6cdfeefca0c7367ec71cdd54211b4479d2) 0xc4d5bb85211413dd0aeb15f7df046a74bc8ad84a08061152fcff2c58266060de 0x647b6833f32d6f37933fbc6ad3b4095351d028391a46e54e9123035172827efd;
    Dbl 0xc6c837271e03a5845b71d03af11c50bd379b5377ccfd9715a27b8caacd0f2075 0x2f35b28709b4c554b7528f0bec396569b05bb3855ecbfe10987b45e574f215d8 0x9a5a51e755c8b0826bcbc8ea0a8fcb645be5f891294b78c86860d14b787b99bd 0x2d02b943e162a00ce68b020deba3c1befee49829e094da7255009e062d9a417c;
    Add (-0x1) 0x8ce9640cdffa62a6bfd89f16107aa9f65a604e49f52fb5179b0963aeb96946a3 (-0xc2b7fe4d54f4e9c6b34f2a75258ab97b67a793c03e02cd19212b6487c366002) 0x4d901a35a913bb84fef3941d45aa13fbd98a60397898affcdee56106d283730b (-0x4a1b6cd5450f9f8725b8c63f596b1047ae380a2afe4efe1d5af92916c0d3d61a);
    Dbl 0x7a8042a929f1a27a07c44f041a82540d24a1581bd40b74d714f2b045a66247b8 (-0x103a2ee24d6b5c9655991478c2ffc0a3d12864e6c9f5eb25c84f75851fe39da90) 0x3a9e7fcc311e69b3fa3c0490c8e75d0381f00333ea24cd60357ea2f63ca38d44 0x203236b66e705d42fdcf7f7b634a2768063c99a538a57a45d32d30185807f84b;
    Dbl 0xb00f39415a38a7382fe0e9e3106471fd720078ab746326523f542f4e4d5afbad 0x5155cf824ca8d1791829afcfa88bab0bc31fbe85e51f04af408c6cd0ba043bc7 0x7914efa21799930f1d0c42fa4c099fbd99a11b7ddf9511dfa0c9fb2479c3bb34 0x2bbce907d6747204bac59f1b6aa9980c72e43369d07e7667e4a5cf683b1970d1;
    Add (-0x1) 0x7a3a9491895231ee36f23893b61b77333bfcc55a20e2e34cb1b536499f4fd18c (-0xc5931027d7ed83ec51704289b46c0feac624180587566aa8eb926498b875a59) 0x3a5be30299690d5c2839e441e1b0faa20e643d437bca1e5a60b27a63137eb44d (-0x4ae17ac710c60087dc4015491c09bf3de79fd3d8021874ab272bf8b16c166b3e);
    Dbl 0x80583caaa1dd2e403ac5acb31c055fbacb50684e80a7e790f2859aec3297d815 (-0x1b2ec0a2e1819e2946c9b4c616a77542485425ce57ea3972f2f6224bc47bd5052) 0x40585b14a5e53effba9acfb9f66e07ec3f0ef11b03e8e0dbeb10b0e3729727d4 0x355b642bac7c82f154ee50dae4dd88bda2517a41f27982420e2d8195795d2e86;
    Dbl 0x39bfc03faa86867c53a60a8b6704b27d7ca66c22401ac3752c6c11e38541e01a (-0x663cff713a8c44a57fa40f7f4d63fd25c19c4afb1c03be918d3bbf59e7266df4) 0xd06f33cd656df7c0aa341ea45f7d95364c15df357e620dd95afac36fae5863c 0xf76e28c86f1975d9cf5ffd445f58d0cf836240d32cc689ab7438b9f0f59a551;
    Add (-0x1) 0xd9edcbe3d3a8f051a98708eeb04a6d0c0c97ecd5e1c6427df91cc8ae01471d6f (-0x6914e5c7aa6703ba987de9dddedf13521aead75941bc03959ebe1f1ef43ee87) 0xb985008c1c926b327ee8dbaf679a271d828a5b5248d1462341884afa0f574281 0x289854f91977193956219b66569c39805142938a35f1537efd535447ce1c0034;
    Dbl 0x6deaf43207adb916ad79a134299c7ee69763b80022af09241c30697ab31cc4a2 0x746af5392fed63505c91346df8a0076037fcc477a388a85948923355b96bede4 0x2f31eb961e214d33f43a80639dc9242f5783770efd80a247d3f66ea75de7b415 (-0x668d60384779df325078314b7eb07273ce703e8432f964a14a624f7af392599f);
    Dbl 0x6a9fc7eef32cea5c2b543e9d65909336717f2c6df42883cffe54384d979c2bf9 (-0x20d53bb891ef33af18ae155c5f7a6a327db12b7c937dcb734485e4b5f4090414c) 0x2c68b54c04c1564459fe484e6418c09778acf3c5ed57ad9175a9c1695a872a28 0x71a7b4140985e0e7a5f89f0d3fe5e25aaa155cef727e9d151536541bc0c65f6;
    Dbl 0xdfdbc290b24a983457d398a442beaadef01fe82ce1dcf571d85045702a19ddec (-0x13c90279a29e717ff74ecc21c19baf93afd243197fc257fac158bd97178c19238) 0xc3c0999f51cf3a6d0b2683c704c0cb3b9323a58b3b4b4bc455980f9f767928dc 0x760576ee65e4167831460782c89fcb3b1b6a151e1e6efe68aeaf4c4223cc283c;
    Add 0x1 0xe93f542f192bea8bea099bf788b943bb49207db5cf35da723ff3d8d3fc32e346 (-0x2ab00ec1934feb126286ac6b195388486eab8088e99eb6d664668fc8b955828a) 0xd48456e91b339ca84e9bd799dcceaab431f527ff6027d015b8a8098dd0d47e8d (-0x105ef6a12c059852433e49c93003964cf50120767d7dd728d04fce10b5a4a313);
    Dbl 0x953fec8decd071c18c274d64d8cdd7dc5baed8645c689ea1353b4daee8ef072d (-0x65cd576b81d6e20c89d48116f4b190fe56d0d84d20bd061ae60f06ea3ff0fbf5) 0x57037953d51ea7a629f28828676ab2308743fc8c382286361d19384cbfaf2ada 0x36ee4cb491922734b29df943ec6477290abecd1eb892a8e4f3751322b2b2eb29;
    Dbl 0x620ec41db83ff938c3657fc68eca09c0598a925b38dde52c4ebdfa84560aec35 0xa21c9ad032d52dc8a43d9d95e444b711a3c652e3d47dbf1bf690098710d92e6e 0x258f4f00f01df664e0a673a0c5c94b26a92e940c7e7d9f6937630222e03eeaf3 (-0x40669a065ce677cd50337e808f417531e5071274d80ca1c1170ea1ad30be1ecf);
    Dbl 0xb9c606ec617c8ad11e7a8cc5ea7311b0a5a5a0e620e014fb186c949b47b7e955 (-0xe43abc2dbee329e144708f62fa1d8cb2c35807df13e2c50500cbe8d6c09fcec1) 0x86cfcf30e18c8b4f94562d1e92d87faa2b6586581b3c50fd09ee66d142b0b59c 0x2d7af695576f16f78bd8c0b48756f31d229a4def389369d4071421cc9d8b679b;
    Dbl 0xe3601681619d48d66cbcda8fcf2eb2e2900622b0d46ff1f9b8c2a248c8c32b33 0x12007bd0e10094cfa6ba8bf8661d222df4df2e0e98664c81aefa25432b57dce 0xc9f38bfb20142f4893fd7d267f4c7bfe8cb64ebffe89d3515c78d6221cdff308 (-0x4652846b9454b250962ec969137beeb1824084a527ab944410160fc6f6fc4e17);
    Add 0x1 0xcd332537e7aa80a07cdd14169634cb48b06bf4b0502573f9149fd3e80817563b (-0x7c6df3f375c55efc6ea22b6ee3f7974fb5687f3120ab6b79dab91158232aa9b4) 0xa47af3d4073188f0f53429f168af6b05760e59f4468d472982f97c8195af867e 0x216c4ccd1ae209646904ee655c377cd0c8b867b56e97b538380cc74ebc5b5f5b;
    Dbl 0xc5cd35a5daacaa4cb7f0e19d5b88cf7f3f95779cb5b69dafdc53020d1bea61cc (-0x111b61251b2747c66f03556daa0ae390fec3bb4fa779d3347c3770e07cf40f738) 0x98d57910d24187b2c01aac47109538b4b0b07bfc433686d24e83478c8b6161f3 0x45fce782500958384b3a4a7ea83e8e98cafdce44a2ca77f33bef2dfe6e55dacc;
    Dbl 0xd76659e4cbc286ce18594d9cd541959ddee98c6830d0f6d9a802500058a0346 (-0x37b43eea918a5c7ccd3a68f3b03a509e305cad9c0f54921f64a0da2f37949624) 0xb53d13eac561138534ebfcb1651a51c04d61b3f2d2d1d2a669cd5cf80e8a15 0x3ae58fd3eac6113614690f3da2f5592b035e658efbf6da975ab7f4dfd122823;
    Dbl 0xc1cdea24b81baa55cf76f3de52145dd32df318da59a02f32d557bb2fe1ec7883 0xfcba52b670dc3a45e7270397d5f198a9ed33222f1d496ac13f7c6b3b44725c68 0x92b820acc547d9a7d51c092027e00dbf9886076cb69fbabcd3b379f8dc0f8765 (-0x37999495dbde34f9733e8f58a234a9cad66aceeb51fcdb6d719f6802774bca8);
    Add (-0x1) 0xa5b05144f48f6b27638903b9b530abc7cd294d5f7a052436bee89c9e9d8f3833 0x1b79bfa2f629167afc3d1202b55627fbc1cfe20e8d275d5defc8639620921d6a 0x6b3cc233271a9cdcdb33a694ebdb5bb1ea093a4a3870aa1bc8fe9c0fc4467f1a (-0x6fd10190b7ecf824fbfc4ef3a1e8f124b9abdccd095be411661fcf978011a5d0);
    Dbl 0x792592657bbf747137eaa93bd24228b8bb67847cef5a04d958e9c66665c4dede (-0xd5b65a95d9235f5e118c640262c7c0b6fab7d5e55940220c43edb9eb0498b467) 0x395489e7cd5d34b3bea7c0b4c08a92e19bcd0c998ef03d6e4f7b8b1f3a0a8263 (-0x2156db13556f2042c5eba5edde332608bc4ffda4ea198b75fe5d2aac5ac0c1bd);
    Dbl 0xbd57618d754bfcbe6ef2c36e6f4fcb37dc8c786334b5eaa414b58462620a647c (-0x1a7f6de5b0a5e7282bd7f01d2adae64e1ba8de5a9ab611117adf1520951203db0) 0x8c0a23dede8e91c3d8cbb4c41042880a076d3bafb7314f147d8f8e7ed4ca997d 0x9922f78e04ba5b038e00945fd2103765b85bb3204a3e0f053ef541455e79d75f;
    Dbl 0x54d296efea383b5fc79dcee4100e1955387b96ff09cc7842467e88cca6a9b0a7 0x5df2db15596625e8803e7e0f051d8b4e926bb621d74c15802900efb560220292 0x1c1ae049886a12d2dd6b1528bdd35aacabfc7deb733c9d5b9f4de3b78d299c8b (-0x158ce5a9ab478602e401a082e8d7939b2023bcd5ea118c25196d8d8d421968d2);
    Add 0x1 0x2b9ffa5d1cefcb98bed147f761ef9b184310685b185df70168a2500cd8ac00a5 (-0xa03229e5d0a7b842dfe1348f892a7d2fc283bf4a793d028ad0047f2a9e1ef91) 0x76f221443aba0badea88db1f655d4b9743b1d177ac2041cfa07ba79516c7aa2 0x55d67af04cc5f81b305dfa276236227e8c693cd52305a98680e512f71bd288e;
    Dbl 0x23c7ab89126c37c9d6545408aa2fba78203f048124b8965f0c813a9f3f637a51 (-0x217706a6eddfa80125a7df018c0a6a4c70a97861be3031390f9c87163886327b) 0x50034a3a214d824da29de2d6d4a1232b646948d78535dea094ea45ef728a699 0x98a0541b66fc9690554c503cce160a0c2ce8255a175e997639c1e1bdd503e7a;
    Dbl 0xa46cec357d03635e986b8ce422d33539bdc7d59c863fd0f214ce1d67de2787cb 0x256d0d93ba0a32f8187c61cc861f7f0b0d5c5b163a23f8f5b8577ce7307e69e9 0x699bbcfd18dc38d563a07d5fd4ac59661e31e568e5074beb34665dcc73fb7093 (-0x147753539729e573579495012038cd675d4b1ab20f42d393d43f37392002c7fb);
    Add (-0x1) 0x6be2a6c411d7ebd845c4aecb52fd2ff30e8a8ac0ecd3481bb6f1436ed7f646e3 0x3d75b1bdf9988a056b4e0f4e96ddcbc004c4279b6e8716168c1d3ae4cf0107c 0x2d774012f3341dc5811db83eb72752b57eb456cd4bc394941e164471210770c8 (-0xd85a58e1be38f749586b1f99101719bcdb13e0079110710e7e24ff68e34d460);
    Dbl 0x327a7b9c9b8c87ea353ba9b2170da4c68e796f61406537841e00111e345b62eb (-0x347656ba48e515e9b58b7ec11a695b81d989a704af21f2bafdb35c226c6a27d9) 0x9f412e343ab1733481550ad5965e468b7164b11d476e64fb1770b838750a89f (-0xc6f08172df8d20a73957d673e9bf90e31a9893fdebd779b6e7b97f896ad3ed7);
    Dbl 0x628a444203b3e00c6593ec46a0547d8e8230ad633f11c5994b64482289c9b7a0 (-0xc4c3f1534714065780f8f0e1774d110b3fc38446f21ca2acd4114c4eed6ea2d3) 0x25ee26f05a22ff64dd1995c40197b156a75bc36b73771a02b390f195aac7a94c 0x319bcc0a23ba8b9ac8b1734a33513e21dfca6cdebd91c790724145121152d9b2;
    Dbl 0xd9a124866f722d825cfac10b967654a0d2790caf033adfe50b8d007e56fbacfd 0x12ce13fc2e079dced39daa0b88ae2b734acef54d6a25b15285a9d308046ecf549 0xb902955b98406a10d0b2fdc0bffb8e5155df477248d08c05f9ffd40385a46e62 (-0x974cc1c423a20fc5f210e71b6f08b15437571c2f4231c9ca47410469b1a30c8e);
    Dbl 0xe54fb8f614e696cdbddb49ace9bc84c976a049aedf1b7781234486bb9671e5e0 (-0x73f2cb07c53991e76c0725f0b48f805518ede69197f4e1f40b63f1557c008be8) 0xcd67b9bcbc4fd4718a9bbf2ff10a98cc885efc39dd13d56b7fcf67d8e4c0c15e 0x67852b0c467730983d6ad7fff138fa6a9bd9393f59b7a0f25fb291323b7a2d30;
    Dbl 0x99a20e89b24f3bb4ddb56d1a91e622260d4901c5bb00a1e90e33114efb53a626 0xd5b13d033c89c20eb39fb42a5ac75cae85fde02ab2116ae0ca98c1099df18eb9 0x5c331bf75a6ed72e1be2449883e3aebefcb2f888b84f9b75be27bfb2226e45b2 (-0x322332f2bf1a2abb9da5681c35bfb431695c7cf21a6e0aa60d56ade2b2e62513);
    Dbl 0x1631e4ac39265c6a2b32504f6d453c872aa9eadaa8fdca51ec8c39219f07bd0a (-0xfbcd7688b06a5c4da3c3b94bd924b612788e823a49ff555d333e63b095e1b1ef) 0x1ec9d06f1f04f41beece4d4a6e3bae263bc2c9c71f776598f6e0f1f0f66d228 (-0x68892f785940fdb659ef7d68bd94ac142070f28b2977ca517224d098ca90623);
    Dbl 0x42c2b682bd9e8385d630f90a715c2f3b9c4818144f7d2efeb905b8212f6d4c97 (-0x1e41aa6b252d7df92563dd07f5bc66b9589286764d7bb9523817b2644e01253dd) 0x1168fa349b7442a77931761fb65b89577351b7e9f82272a5708515b76aee7a82 0x2fe98e068afb382fcd3173649b678eec355b9b1673e118423dff7eadf1c7b7ab;
    Add 0x1 0xbb2f6d96b87e1b4d69da2bfa04f62ebaf9b5c8c326829463eda37bc1a3fc1e49 0x3d9837237765f73e043a5a002443de5e60b686790c15aca87b4e90e02f41731 0x88de52e426a7feed61b70982cb2a331c20741be29fa1cf251dbd3a694a63b599 (-0x951bd3961a88605b1c994a2de23916805adf91ec6cd4dd092087560b956c04f6);
    Dbl 0x2abb7a33b0fcfabaef244fcaeb255dec7f9f7c9d65ad9746c6dde9730c9b41ef (-0x2c431eacfea18f9bf27372efc01b771dac8908907920b76e731f0097eecbdf12f) 0x7220d64bf0ef06180c31ec62b4e7defb1ed86ae7c86790f1b054d149c362172 0x289e75e98221bd660ee084b67ae5d2d6813a133c87dd758ab7fb2a5e55c6ab4b;
    Dbl 0x5ad50b3e91d5d69fdd168df516f3f3b10fd63605bc34e9b4b51dcc2135ab3357 0x430a00be1f397890d67b1790235af9f1b246542ee898a18458a842624d885160 0x203a7d33d561f5c6b9f55b4e417a05184e7ed694c6832bcb9dce6df421fcbca6 (-0x55a75b0971ba387e929dbfb89e33cdeb8dbf5731b4264bf9e2edc357e704b1f7);
    Add 0x1 0xff455fb7b8f808f0c816f655006631b5458c3347c6902127f131da4ce0b1e10d (-0xc42a7abe2ca16d774fd4f09858c915b938e4f1689e43fe0ce2c8d91e3ec844e1) 0xfe8b477dbddcfe244d2b932cfbe542adff44690336c07c0b6893af89d9063466 0x62a0c2828a14ed02d2fa761b77f18da372f71fb7a8f70f80853b8936ba33c20d;
    Dbl 0x8fad36a937daf0fb0b5ce79d0cc3e550147fc76cda00d27f863ad36608fa2445 (-0x1156c82de8868d7ba94c658b3a8787c85a68449bec39e84dce7acdd3ad63b028) 0x50a2f844496ae2d19c55ec2f7a85071dccf5b6ae4fedeb958689f2780655e26a 0xb18eb718faf7779a2fe890453ec07b5bdbbb2c438fc76a8d70834ca49dac1ad;
    Dbl 0x9f69629fa988378c9442efcd51447474da11986635b7396028e3b9d6e1094fda (-0x937b2d2ba37b543d1797797207484969ca996500b067ec93d5499d4cf7148054) 0x634413e4c4d2fc03485184c3219be77a4e1b781543ed596a583508d9a87ad944 0x9f19fb5f095d41edfba61afc63702cfe7789c86a7546acb6d8f2a526ac1cd53;
    Add 0x1 0x2176ef01004a02ea94b6e140505f25bbf3d0cd84722f305a20c00c2788ea604b (-0x81d4d48f50280eea8fd1bf096a37aa1b6fcd2107a4db1810bceb52a49ee58f1) 0x45fe0df7a821865d72073f864cd66fd358c761c4297f5aad8b34c71afd6c4ff 0xb992c46895fc285f8a5190cad306387af86ae8b1a020b6053a1e4adb2655d2e;
    Dbl 0x22b2fd47705e1a774b9680429eba0905b0de9f4a25badae39c049f8708659f68 0x333fa279c3a15a2717a188f19c2f2df934c442f8849291a87b7380c6e05e78a8 0x4b4086c307b925a34499d097e923a85b897397da1d2330c984fce1d01d7741b (-0xcae6028f636320bd59849f4c69011f5f7c9a60f13832cb20b44226816f98bb3);
    Dbl 0x4217eba1a0fc210b4f22aaac22f1d483605e2c7d3e765ea17558a98047ab1610 (-0x7b067d8fa42413d43a54e43cca299f7c3d78aa8020191a924c487c0404e07e18) 0x111057bb97ff69ae23ddf70bf536b13dd6dd9cda90874b90a02a91748eb29faf (-0xf35afb9619b9f7edda456126db9ea4065121928602c94bdb8d4a9df1a2d6968);
    Add (-0x1) 0x2c4391692b81cc42ea3c2ce1cab7180de8ec6daa3827731c118415494441dbf3 (-0x15c1375b60e39f7dbd993bf26339f8f5cee4460bad187aeded870aecbd295eda) 0x7a74bd19e40fe774b0e820eb03d258c5d90b2924d1a9bfec33eb464abc39d18 (-0x6a44585b4bb8a2fd9513864986df10933594740ff7be5f8e9343ff40eeb538f);
    Dbl 0x9fbf44e14ecb7f66c14cee67d9bfd01883b78873f9f02a110c4c9a0699cd30ee (-0x1758e50374c4b51a64ea1827b1f5d7b5d137ff7b76913aa2c79586554cd273644) 0x63af26781e4bfa8993632830e4e12574d7fed24bc0c961249e27fa21dc6fecd9 0x6a733d9a7a0db9d72601cbc2d92539129c482732208e61ddd0cfa1642d2dd79;
    Dbl 0x1eb1f4d813cc07c85139626b2462bad70b8c82dba92e6db49f96769299048e16 (-0x1c4a29dd34a06c119fb851ca515f47d9a696e632b5864dcbcd638c6f9e71c31e8) 0x3ae31172549ff2b33feac3900acfbf4487ec174cba32c8b299e2cdac7b8ddfc 0x850d39ee06e501f47a3b70a656f6994733fd77c026e4cdbb73902c92979e66c;
    Add (-0x1) 0xd928b2d4cd529c1b0665f7f77a373505a7e5e2235a13d78117bf62066c0f9dde (-0x476ffd851c56ef18b5232648bfb1b8bbdc766ae3440773b75633fbd50a5d0530) 0xb83605a5dbb8da880b99431b24983f325253b0f0b17d865596b01a79aa29c000 (-0x2b89abad65d3773059678f7b5fa478c50e1c74c210fec134c0c05389a85d472b);
    Dbl 0xaa04c4a0c32fc2778cb367cd966a563be1a425c360ab74223303fe61b00a35ad (-0x1433d9e3204665f8c0632c10ae078860d4b5582af6a5c2660b68fb93b69472eda) 0x70ea553cb0326cd73d19085d3a77e89da3127f0d3ae584c1e09c20ca25dde4fc (-0x164baeb3ba81d896e97dfb601eec0d8e89b4bc0a38b534d8bc44d74e95bd7d5b);
    Dbl 0xdcfd4b44ed9d9dddfb351854ee7b2f418830abdbf9c6c24954dbb95190e3431c (-0x930a183dac782672dcc6eb89b04540fd44155b2d01ff1adee9c8c216b885e360) 0xbec453fd138a5aa616d949e0bfd388379251d0e2bc0f1f89c03c0a39839c3720 0x6ea738aecf48ca246f10c7d4f67db0d5eacc7bdd346ddee3172db64a41d870ce;
    Add (-0x1) 0xfaf3743283f2a919d445d6158d4a4e29371c2f4979a7057c42cbe99244b3fa79 (-0x281eaca112ccc27fd764612261dfa962cee29703b6af3841e9a2f212060cd88b) 0xf60066796c5aa8f89e07c139ebfa2f6b7f60ec314307897167a7dcc270dbab7d (-0x3ddb4ccd2dd02b1a507525fccfe4251fc5fc358974d63ce3f7ff4254d7e6fcba);
    Dbl 0xd6b3a70f5a9de6bb94e0677e86ec1f4c16776821bd7bb4a618fc4cbb46953bc5 0x80a28a1a18343b71c5f482d2e8b3f4247eb57188c70faa32ce9acd2ac5fc91c6 0xb410d9616c0e991974e525caa973ca277c5e14bf7fd91a06d01b1655a43fd0eb (-0x1d06f28b8499cc58499f1028a37f89d4d788748b109643cee635710472628dcc);
    Dbl 0x72f038d6009495725f5b339744c67de87158d3fb2795165e08637d93db1c4891 (-0x1340fa3c44df83492443c5b4c3728c3119de9d502a39d1c1c218f3de515812713) 0x339ad40969fe92e1772ad301629595db3001ca7ac81f8235dbc8c11bf90904e8 0x1ae5e3706f2f2f23a19569f17e18d0100150e1c493dbe75fc14b45ee9fbe6625;
    Add 0x1 0x94e8ffb6810c99065eae66ca93c45c2f0b5592b4963783888252189fd6cfc769 (-0x2dcb98e09ba92e9985726a1922fd2440cdafbddde22e615c6060ac9ccb743bbe) 0x569e3bbbd60bcab366e3062d2128e05cbc5a684cba4e711315692ea3b0159c3d (-0x41c6b80b3925f7214a512b1cfdceed551a6512db3559f3f11603c4ca503db77c);
    Dbl 0xf4acf90b5da47e5d0db31ff48f40453ab82183bd838c06250cb4619ea9a8c0ea (-0x1d3e899d8f1d10ac46968195700b9318266e23afb67fd4c67f7a3211803400d33) 0xe9da2f9e2de8b23489455df90e144c0543efa95abcc3e2d5917e6d1aa1537ebc 0xce656832f69eb6f493810bed0dc7b5cbfcb3d87680ef3b84fbc7b2c401e279ea;
    Dbl 0xeb16358f2d828955ec915f07d8bbc830d5d1abac8845639e58576ab6ce58673b 0x1953d2e25aab4ca3067fb9b5eccace7bbeeb649aed39a87d2af6dc12ea60fe6cb 0xd7e1c842f53fdbc23d2192017041716b34e8ffc6a9757988c100f458dddbb742 (-0xca89ec936763359e9dba2136e13577c401892862a401a2a179188cec627471ad);
    Add 0x1 0xd72b8b8fc90a17e31f837c670f313da6aa4ad3e9b6e7cc1d49670e5661f049c8 (-0xa51708dc95a9de933f2e7bef6b712e8b9588379f3c693ec5cfb14bb069416ed3) 0xb4da2bd466ec1e6b193fbd6a84d5fbefb4257ff782e6928e6d0a7df01a805532 0x25437477b6b582ce02acdcc43a92d85062d183da03ff0a8a0a08c203fab78af9;
    Dbl 0x3cffa60d7a2203606e485332028e32b9abdf705ee41a658eae12a9262619609b (-0x1bdbbb47e9cf3ad3df5718c6ccae004bf15963d634183f702a5a4722a3503f757) 0xe88d5229a579194463f03374315b2166130cb43947304ca75ec5445873364d4 0x17505f487ccb8298f9ef1b98a00deeaa41a3062bec5d9efacecc02addb758e79;
    Dbl 0x160528fe894a13a0acfd5de399efe80708b4cd0d48f6704b97da543c3c6d20bf (-0x6fc8e71953cf918e1a5c1ce1fc5b982586ec5fd492ee7283d00a61f26206cea0) 0x1e4e32661ff8366a2c358c733c677461a00dd926ead6f11345f9bc1b2296214 (-0xa40122d6933270969d5378320c1e2d12009ada7d73d807439796f9d1721449b);
    Add 0x1 0xcad8495b5ebf3e001e94dae9a3e1825b8eea3b02ded75660babdbede6bc6ae29 (-0x8966450c20fd9fcf72174c4c272af41dab57193e6a83e20f307eb44635c1df0b) 0xa0ba0a80b174f7b7124ea24d7f86f3d570e9344cf6cd6b58471ddb4ff031621f 0x3116e519893d903654c9c985e4d2d62c00e986383743aa5592c57691b8a4e1da;
    Dbl 0x7606d7eb14c157837398700e6cba3170355dbeddf45b777ab834b218ad32e499 (-0x128165d35faba127e9529449e79aadeb32d35e7e0afcaaac4007ec8a040649b57) 0x366a4f3bc2ae39b4e90c6b595839d82fccabd6c32304281efefa86b202b414b1 0xf994c98d08df0d1f78712c62c02bec1722d48dea02c5450f9019cd18a173bc7;
    Dbl 0xc68683c647306912d45a503c6952d3cb455fe77d8fe0ce03f1c502a706b7ddc5 (-0x1f74bf27266fd6057f58269420550d5618971bb4eb71178b15b8702aafe9df8d) 0x99f45a85877a4a2a65e3feb8c5da803eda971e5afdfb39581ad6ed261ebb95de (-0x1a192f0ad30518702f9c64977ed5aeed10c55e9d3b54a24655817ff1b7ead0c1);
    Dbl 0x7e87c7bbeb9f580110a62454ea728d4a96f60467d2774f895736f04cd1fd252e (-0xd8c36adc34b9b2ac8505d506cc331717c7a73b5441315b8e398a9329d8f6715c) 0x3e89f0a17e82ff952a8042c41631d3bf85c0fd226daa232999d8b9253bc8ca40 0x2aaefe50b0afe99fb711962c25d730f7260caec259d3d91aa59a3fef3abd2f0e;
    Dbl 0x21bd4ff4ab7d3020693192953a377dc541a1f11e589731433beaba63db89e7da (-0x34c21b74598033081482e9d1254b5926fdc12617796a2c60b309880aa603bf1b) 0x4725a9c40e6c38c491918c1a6a6034d0053764d7e1a2d61356db1a90a3f5737 (-0x9c905898497fb2c352fd7490548bf0c0f6eb4fc2eaafa8306dd10eb47b3f34e);
    Add (-0x1) 0xb20bd5ce0780d15200051c2a460c5901bd7f49f60a24eb7eb91ab5edc7ea7d46 (-0x44f6e516c939321081f2ace2d3f5b9c302558f0a987e1b41794a6528cb7157cb) 0x7bd475df1088bc5385777833bcc1a095ebc6db49f2e25150a4d88b4749436f7e 0x66aa6290d082eef1499c2201bcc57226f0d3688790690c252eea5526a29f61d9;
    Dbl 0x1b1ca9d8ffe6bf797476cde0dccdf8dffb658237cd33536824bd80dc0b415977 0x1d98f6484e429a3dddef26d1673f9ebf85f4b9db2906843524e54fbeec6ed00d 0x2df0f096101efb66023734acfadeadd8a4f2819c63ce84d1cc60adb75fe54ea (-0x18599360fd868165d3079364be8e4de47bcc90e6913d7375b021bf578baf4766);
    Dbl 0x8947a69f150a02bcd36040a5bfc420704139a59aa3c1b6ef0b8aff194e358def (-0x2089450c8168bdadf1f88abe0040dd0b2d3b6ded7f4dc5ab5d0a2c98f388884b6) 0x499dc46466d2d90425840b1fff9163ed96a9a7067a7e3875c3201428f55ce3b4 0x1b0e9cc0e39f5b46df8517fd0fd5fd9625d0316799040f2cb42935c0771bd05b;
    Dbl 0x6dc384865475048645327eb1bf4e51f5b55f0f28b7cf42d188fc81af8ad317c (-0x17a303cc306493c0b75a2d8f664a20292bab2df0aad373b92777d54fa9beb42f0) 0x2f10142dbc3b31e22abdd1144e2cbf6ffcffe71e4732685d4da3b359045620 (-0x95a6b33f326bd3590d8e394d33caf76805d5cc2fe221c8be07bc50c09b54e1);
    Dbl 0x12da50c4fa2722241d3d0ca9dc4ba5bffff09bb5d0c2a8f20c5063d4e2f627a3 (-0x1d0d39a9a582c278d99e47bc3fc07601171af5da53336ae9a334d7e4bc2594745) 0x1636d895d86ace50cd85ce3632d81035b7d7b277ccfeb3c9338be6c61e0e113 0xeec05b7d2eb71c9e460b4d2790fc4f68b30db93671a086f1b6df21fa27207c9;
    Add (-0x1) 0x1dea427986d9c5fef0e72a2b8a4c980e0445150720599e6fbfec60d128506af7 0x5d1d68131952f5d5e2c54bc236c475ef90957ba61f7f523e14a1effb43b7f1d 0x37ee96d2379a99fe71bc385efd70729182709c25d3b53f6b86ed39c0bdae9d3 (-0x38a3aeb899cfb4c6d357e79c66a89c603b87394f45ea0a4bbee46bef483f2b5);
    Dbl 0x1b70a10cb046cceca55876fe52b5e0f00c304ca41e35565d6557109a32061165 0x20214ee63c5eec451496dc1fc567f851a24b78f76dc6a330647ed02efc91ec2c 0x2f0f386008b170d4842b911eb0293ceedf5a583d27309060303d4044cd147e0 0x2810e83725d80a399385980d9c51ec6191442a7ecf54dabd4da8518a3ba871b;
    Dbl 0x29db2dcee8956f30370825cacdf265c88b0269c3cb795d785e497734f7a999cc 0x2d296125ca394e07f6aa1217aed804ae9c4421d4dd9ecbc78d4b3a08853f9c18 0x6d7f053b58c229d108ffc5c2013c9447ea054afb003de94744860f76946033d (-0x19f704f3a95fc200abbbdc5fc98a8991179ea4602011173d1d415488a674bc04);
    Dbl 0x3d18a4a5994f188203d462917556c98cfbf898a68346988c1fa12d58e2380444 (-0xd644a8c42d4e8a6533509986a351d59cf46180d7d408c0fd839568cac5db1a68) 0xe94c0d64295c8e523f587ed8a632fbf63498e67e9708d4ca3da0593453b4efd (-0x14c8ab7f638c56d996b91af78312b3b06e750a4923ad8946e67c2650e20655e6);
    Dbl 0x13e1c923d7d5c0ee7e87fcb51a26b6fa503acca6fb1b418d49e3fad6518e548a (-0x2ee973ed31da1a0cb341a118ca570ba8dcc111c2a5e099dff357a15effbe2aaf4) 0x18b4afe829fb95170045451e30f1cdcd6a231c20c5fce4a37c252436132b287 0x90f3b045c7b7caacf12e7e226f9f006feb3c505836b2a90cd867737e172d0e8;
    Dbl 0x5e2f6ad345ad8291625ac374522bd1b6832fecf07e0e86f9d100a02d47df4330 (-0xab1f11d3df7215e4b253530c7ddfecfc802e92cea63470e6104f719dce1f0928) 0x22a6db3baff980e404b2e4d89b579b3b0139a9a72ded061142743f8905441d2d 0x2eee4c9cbcf31dbcb7434f968b4a46e7f97ce64b622c60cca280c05296b8a1c;
    Dbl 0xc40a78740f310e3d9d1bc008153e731d01ac5b3f3d8ba4d2a1c1744314ca3738 (-0x6220d5fb2d4f510fe937db1eeaa408cc20f9ce3c4ee86fc773a315c735f0b938) 0x962008dfef21595f273991c89a5aa74f8ded1e799c6fd8d1eab4f55972e9dd48 (-0x3b779c7825a91022fa583a5b32a4204f67f36502706595700e1fa025f0b29f50);
    Add (-0x1) 0x5727c8f8e57305ff3a430b49b24465518ba63b494a6a0435ac2e8262a6fe78e8 (-0x35210427024bcf6cc3c24de2d491c0cf4b3343a13d160afd00574706b398d61f) 0x1dac10c8233c0068867ab874b350cca6fc5064f652c630c009fa1d7139dbba7d 0x4663685da031d7cb2c21ed7b2c9da18e538c750fc4b2249606cda0595a3a8047;
    Dbl 0x164c4e2138918f0e17cd2c4bc936853a99260341304918d9a13ecda1cfc698c6 0x5ccfbac7b2dee6bc4fc739d2232fc4a4b0577d661d69063028fdaf210b034ad 0x1f1342c333c11f7e4e4f0e3eaaedb7b5b103092372d897f256acc4f1e37cccf (-0x7371ca6dbd314fe537412dac022c20e0c9913d48c12e52b02d401c3864b341e);
    Dbl 0x83a9c58e1d3c64c96c1c546643c0efd4af88332cd7e50a977a141d88aa61c6c6 0x16bdace9f099578502f7bb0a4aa023706c52b045d51446b977617350279242c8 0x43b730c623b9a18cbfc3ea416a0aed83a7054a7651ec84f002c0a9df5ba9ec4c (-0x2cf8be7bf98c0f7a1da9541d4231fad99b55a7f6e73415dc20eb7372bd624b2b);
    Add 0x1 0x886a45c2d1331de9b69a836873914e8408ce05ab88677b290f0f1589ef5009e4 (-0x3fb8e1b92151c5ff84ee7aa926262e86ce098d0a8397da4222b6ffad2dc81c57) 0x48b1163d1f4f3d61816c74a9e681d9e4835c73e9310ff7403a403cd533a300d4 0x2485761f42473079184b4bb32aca0e3900457044bd55e8bca00a19454bda3f6e;
    Dbl 0x66e14be554df3d74b76543cf6c6c1bbc11f58ec63e8903e55cf2c027f82f563e 0x756ad170e5939c7d5c6ed9a889d6cbe19e8c6396b40cec4f1ad6c587322a334 0x29584ec16899915033723ca0d9ce9eec065dc287ca444ed2d4846b3acf6bcb34 0xddb121c89d6bfcd394d1f890e71f55455bcb64bc2be4916809a97f5853acfe9;
    Dbl 0xfc2e8d9ec4115477d039f310cbf9c88777a8121cc33882eabe4a2be1fbad348b 0xba469ff5d34513fef7d4b2a9b1ca71b4d0d9114524cbc177946fea3547d24549 0xf86baf48bdd48a40ad703f65c0f715febbc484e4bd09dcbaaf823910b087fcaf (-0xb4eb10d1133745bab3826143ca12eca29f385b1651e6cd6703cbb5d38362c3ea);
    Dbl 0x4f3abdb70c0535dd4c424f21f44fe1e143a5f7e70ab52fc946df58dfbb6a05a4 (-0x26cc0271ef789eb48e87f572aaecc1acdcbd24dde23a370b35779aa48a1888453) 0x18854e919579c2ce745d7fd6194f599d35112601e7d58d8f660ba3457638306e 0x177c48bfa67f18a699d1659e8a700bd1b83f0d72b7a81ad1b3061e2633afc652;
    Dbl 0xea63de98bc75ea03644a6f190b669510a3fdf624ddb3e589d803729b38cf7f4f 0x315263abaff46e4c551519a96df1a1511a648bbb6836ab916fea94aa523278dd 0xd69ab9e5fad14ee4056a1f8ca5050983b9cfbcae054d53949791b553cbc6a1f7 (-0x146566a5382eee710a429b04af7e7c28e6acaa0f42c0e6f73a8a1f91a92acef7);
    Dbl 0x4063198b2347fc2d27c0498d925c601e399fadada238977d254e48f4eedf0639 (-0x1a23efc894e3e21186ffbf611c9640f7dd8ca302dcb917d34d26f05c06d3f98cd) 0x1031b32265ff73696915c4e801443dbb83ac1a6eeee8bd1149157e595a6e0761 (-0xbc40a2f9da3aef5c8551fa3f936637b44a62d65d96b327dd99545dc46619134);
    Dbl 0x454c9c27f689771274097bb6190552a0baa8ac3f5994994bc87e2adc3ac7f5bc (-0x2528611a0f5e62f4fc95cd484e7d929324c769e87fd7dd58566032847b59a59cf) 0x12c2631ab4a3999dee92dba295fcca6e1e4be7b9d1df58b610a13aa583ee134e 0x22f9ab27d2bccf0b6303ebe148f71228dfbf1431f17374850988470fc18a7740;
    Dbl 0xf1ec833fb1d2c0a1a6fdf074df9fd2721905d8049bb64510eb2ceb7c2671c84c 0x6b9d87b4e9a9fc62bd5dac814be4863399ea70b6508867924512e9eb25f15501 0xe49f29a1122814bb4b037402e7b2a2fddd3815a6cad629d361c03879ac8715f7 (-0x5998e565c54a41724b39edd4857aab8646089c27374e082f80bcef2b58e0a873);
    Add 0x1 0x30aa69238336e32c1f5cd887bd7c0f46ae6385f339e3986080ede156ec40597 (-0x1e3a17dd29cc3801ad523c83b94917f9001d64a789a7d6f535d4a7863fffb56) 0x94058dd28cd598395c75a14966d9f20af1a64b44ed2ba373fa6fd2abc6ae0 (-0x5c052850ee3f57d6059f37718167938ac2a74fbf8e3def69d74614606988a7);
    Dbl 0x4acca879d266368644823ec8dcb0e232f509a9340156a34a0b40d4878a1918ce (-0x22c5ee913bcb936868a246df05b14930233e0669ef36f99747e7831eaaf410aa4) 0x15daf50374857d8eb339988a5f77c2df6dbe90ef9c5561add0fdc421d48148f7 0x15b2ad14430c24e801218e1573a5fea39d4f6a3dee483a7f6fa8f2590615ec35;
    Dbl 0x9af9758c413b2c921b628ed606665ce34a5a0dcf3f72f4ab13afebec467c4f94 (-0x1dd41a88c43a04b1a2dc336f869a8f13d95ee160e481977fe9b11139fa3d68b8) 0x5dd11482fd1cabb6fa5dec7025c89c06849a4f2245285fa3d792d71639a6872d 0x51deb929022d80ea1acc4561237b602957569598d5bfb3a2d15203bc33b5ab2f;
    Dbl 0x45c51137160590a97854eb8f5118432c1bfc30db0c289e8671e1524b00471acf 0x60696e66a36372f1567bd6caa9ad03f613434852f82f73ca54555bdb381883ca 0x1303d2fb44d3144e7a03adc55b20350a0cab4023472eeacf71b072a9e9329b9c (-0x23b3ad7632317cbbcd12d94328a68beaa306373f00940f5a46fed4936c37e1c3);
    Add 0x1 0xcdddae37950edcefad9fab9aab01e281ed1e8df351091aa00c58bf814bc75472 (-0x5910db14e3fd98066484c279f97bb951692cee44cf4dee73246838ff321acd08) 0xa58cc8fbeccd8d2ed63418c0660209ba7fa0aa198e80674206e9ca0d32630d0d 0x1869b776e84b82f2d3195ecce4894b3944f79abdbf259945bf9968ec0f535aea;
    Dbl 0xcd4a32c646a4aecead57a966b25a2732cfbc388b6d0fe8cd7660ae8bfda3d2fc (-0x7d9340e3be3ac9f27ec5d8d0cc03fc88f09a43fd77c746319bdb04604b3187f8) 0xa49fead396768f295616c81997d812fa8a89bfbf03b734125eb1dfa312b168a5 (-0x1a44089702a3a7d7223e6722fd8d959b4a5ce34b70ba8849db88df1d58f2661c);
    Dbl 0x20c5876c324113d9a8b88fd03226a51c569253b5fed433973c20aa28685832ab (-0x1013107e340d8603a8ce984e883e3a0adbeac596638aeabc7e0eceff67e3b9ffc) 0x431fa44c4eae21ecfcc7e0552241156d0e51f0684c73c9ca2a6b1e27ea0ecc3 (-0xa3a905ae8bfc8ec2fca41fe3755d490236f2077b232cf89f5cd3830aea77621);
    Add 0x1 0x3bfa9155a8424d2587ecc6f75506ffb18442889fa12b603a8ada0ef700814f4a (-0x2d3b338fe831fac0b2dd1c84d4ca1e9ac77ede28f2f8900f1721ddfab900ab6a) 0xe0d743db76aca8ff7623e0e31464ca608af15f9a30cc56f47e544603cb2dd54 0xb9ae00588727667ed8c7d64ab8aa8e9292180fa47f72b6d398a2e29316daa86;
    Dbl 0xc4c88ff218302abdaf970b605681ef282197565746e553f4cd662dc0cf3f100a (-0x189157a7e0cba8068391daadf31175b464bc265b1ed1997ab310ec181f7fbe818) 0x9743b98c8783a23951df1184f4554a796edb916cddbc5b3a3cb07ffacbad9e99 0x18d85a3793ab4da89353cc44861c4061b8e6d53b78879566e1286018e6c6c569;
    Dbl 0x3dd0ae7045d38aa1bafeac88e6394c7b7284050915bd64cca3e295413f3a1f3d (-0xcf8a51baa2059cb18b1eac30951595a195258b0ba89b2f4a637a2174231bb362) 0xeed1d3d7d8235389408508902111970fa0ee836f2b5f33f52ed0464b3963aa8 (-0x10d6a56a401c11854000158d5ec2ac0c10d67ac9b862442343c93559dee30229);
    Dbl 0x7d1908e589744c8213d3c8a345265d27d5892be42d7c10f101c82c5969d97911 (-0x241552a2cfa2d4e17cedd75c60fdc59d940f1f33c21e8df57f88c8010e3f89fe4) 0x3d217523228106f793ec68f190beac5f3d3f0cfa231721bbb196e78cb8198de8 0x95229579d5bebad8c625497f95685db406f95f3eb1eeae77ece458041963644;
    Add (-0x1) 0x3bbe08768270f4b70a062964aad31bdd474cfe25c3a9eb57454ec4c9852950b7 (-0x25c5f8fdd0c36740f1788326b8ae07d71c7e127737bb8aaf1bc9c61b13b132e2) 0xdf124f73e4274726e78206ad72be984688a315b4350e2349091f90bd39d229b 0x1217b49e1bc7aff1513268731d47e5e47161e0447e742d2a29cdb570cec80450;
    Dbl 0xbaa7ef5093258fd23adb9aed86641466acf9a9fa3efb6335b669306f7e7115f0 (-0x235dbb6931407d0c4611ae76938847509d498c3ec8a6640b6f5449604b15b057) 0x881875ebb8c29207492b0fa5ba0beb0dede86bb651cca966ee9691b4f50d49d8 0x99d4d902e2c8ef337b38ef38888d11761257aa1fa96a47515f329ab83db6ea3;
    Dbl 0xdff381ee8915a29af9e0e5063c9f6956bc3348360df20226d90ae755faffc1c6 0x442212764af5132e6ca0d24a444a662957f35ca5107d322162f79a3f4f8fa95 0xc3ea23fe438858c5f0973a94d12e6185c0898dd9ee012a5538b8802230e6a73a 0x50564c48cc9a3337084772f503e2073a4614b55099e1530ba8c6ea1f10ef794d;
    Add 0x1 0xbd7c6d3431e73d8e453ea56cf790a67a8d60c2f5e1c98710dd143a700d932d14 0xf4fddd9282d2a5e701430be9c7594e5a870e357bcad1e413c9efa0b4fc2338d 0x8c40f5b997163bc4853e4febc2bbc766bf3a095746a0b1cb4f2edb3545a38c8d (-0xf4ad45670ae64e0dbbfcb18c6385c6cb21a0e1a2f2d3f2474256d0e500f88b2);
    Dbl 0xdf7f72590ba946ff26fa25135f5c7f981aa290a690fa35d3a17d382639c928f3 0x82651ffb4087df2bba9ed0cdfecbe762c6165567fa66fde1939da68ff1fa6933 0xc31f48aa8cdd31ab6364429c8d9e8c28eb35e836fab8b4122e2a0f0fce90135c (-0x5a3f8bc25acb7906836270b810fd3ebc9c72fe749201da80ba779983f0d224d3);
    Dbl 0x3b2a6668aac65c6d7ac1a7e6bbb5a9281879c8f9d448140d567b19b99f29a767 (-0x101d3ab6fd7e53339628ea3eb331ea0a6340cace601ce733385be02806ab2e45a) 0xdac923a0fb39ccc1ef38af622151d328396457871ed97c845d3a1013d7215d5 0x4961efea3c8803077ae98892c14368fed97a44bcca93095efc3ece264cd8f23;
    Dbl 0xd009d804466411bbcc10e722f1c693b240ae1355756b3e6a60484943295d028a (-0x379de4103f7036c3d9f93aa1a36baa5a27b15787197345ef30863d2911a5ba6f) 0xa90fff688206c61e113eedf290b3f57af55d8a6b7c0cd87eb67d3844a3f012f4 0xe07ea7e31749987610d568bd45e7ca9b10af3519d2eed78e692ae2b46427889;
    Add (-0x1) 0xb1637e73ebadbf231fcfc02ba56de473f43e19046bc1e8728c9980a9d000ddc2 (-0x2de57633eb4d14594702d680d86d167f9a90f8cc0cf363772e13729e0709c754) 0x7aeabb87d2ef96b4d95038d54c3b97aeb77ec0c9003d0c6af59923db8f6dfd24 0x306b24ccf5f4f01472a39dfa520c06ea404a3120baa458baad3e1cc10e6a413d;
    Dbl 0x76bda6b58a9c1b354b1f35cce67d20f391d6ac87a063f45fa25e014c7d02433b 0x5e19dc4bdb16f0b6b893916a3be3a359f5eaa554e580de1da99649f69de70c52 0x3713622f2779e644347fdb41de44d60884912a6fdde735970dfc8ec7e8e74f02 0x1bc435c0a7be3304a832780be8b015a5de2c187ffad6ceac3a863316299caf7;
    Dbl 0x8523176406f0d2244e7c8ef8812b578dba7244e323458476d178ad23a11d3ea (-0x12745efda8d49bb964a8ff82898c5e36cbd6ce38fc7106ca96229dafe5b18238) 0x453d7b1d9bf0bba57d827d1ee2edc77708a9a36cd5ebe41368c3e3f76b29c6 (-0x4671a25e91416879f784d8eae26905c7337b33f0e0d8f86c4dd18d8f20980ff);
    Add 0x1 0x1ac8e6b122a9ac1983d399b7193d2043d45a931231d69f59a9fa66d4e215129f (-0xd66550e1560742347afb0cb416182f1c35a4dc67488d274968d82d6cc463cc2) 0x2cd6c854280d1712db51d9e8423161e61f9a60e1c0f052a15ab4563d0321c25 0x50469f04f9ebbf95d8973ce7d2eaac8322e6b9d4f6677bfd15b7e41b6fc0180;
    Dbl 0xe64dd6523cb66e63b0930317319acc92c945fd441116fbef854605a6108b6c0 (-0xaf347d6e6b496b600a39460303087505f6e9f4af94ebccfe6c3a4c10c9b2d430) 0xcf2ff4c7352de0ccb241ab9d02ce392a10576a2302ebbaacea8726f7542b3e 0x35a2caea2f55eeb7ce8ca513bbe6e0c42edd356bdada37690bbc08ae9284cb8;
    Dbl 0x66031db0661f07cbc92df77e886433f86c8914bc590d390d0d290536b297a5a1 0x6bac4458d19522acb63e35cf23b0123dcbc2dbd9df0842094aec95ebd85f089 0x28a67bb26f9b0b529dde056190b42b9af26f3839f3fdc1106d529426e37683da (-0x249bafe0a8fe60cfb4828f379d735fc5f530d0d608728d5bfbc989b9be18bea3);
    Add 0x1 0x5d567709c78054efb500cd962625cfe30bd259778bb7fb23b05ed86969189f27 (-0x28f7e92b93bc65d176233b7ee03b1e1462662c28dc739d7a7a9f56e4e92d34ec) 0x2207efb16ee74f799aed18e60400af0780eaa16ee03ed7c57d8da9236a2aa05e (-0x15b8ba7b5a2951c60b22497073392bc83c113e4765b33a662ed5aae2fbc7ec02);
    Dbl 0x7ba1baa33e2fb2a22c0ca4f4bd31ca69aed188bf13883d4d93fd8be0f008a9d1 (-0x2248acdafdda9f447f1a54d505f6fdf7b429b2421f028b6f6c676e395a8859d98) 0x3bb4cf8562dc7ba178984ffc3b920c3c2481aa4f4d1bec78a7ae5b1d5cdf745f 0xf8968aeb19433adbbb09f469767ea7afc3a2fba19cb26650c29e0f8fc35c70e;
    Dbl 0xa0c200f91850d0d2dec7b456fa830a4ecd272c35f3cf56e93ccb0adaa38158f6 (-0x78b90ff7ec48a83c7c43100f4f336b9bd20178ae889d0c80d6934d7b9f12cbd3) 0x64f3143d3ce1e621a27aa91bc7d6fc2506864240d469bd3374b9dcef889bd9c4 (-0xa63476716f050dc3e549c602ca682010c040ef29b2cc92d5d9c952943b1b2cf);
    Add 0x1 0x3c40c2d549947d26a7f7c37e5ddc55a5543083f87001fef0709cd36767b746a6 (-0x24ca47ad10131943a32ddb26e9dd016a28fce0e1f98d0f1fcfe204b4844afaf2) 0xe2e6bb60798c5d74d95c3c44d071a751deddaed49679942aa9c9f31506a51fe (-0xaae5a90fb5ca93d45878e0f2505b57abbd71b2275930cbc1b9a81ea4b3a7f25);
    Dbl 0xbf8b9b1a956a751527bab05d3623ffdaeab95422990cf2c5b73dca7a78a9e905 (-0x1a07f5ef55623ba0cd2d9cd4aa07fe70e4354b9d8273ad7f99467ab27b703aaba) 0x8f519d94071ded9657fc2474e2cbe9caba21b59a08abf8652a611e56c8f2d692 0xf254528e9b787ca5ad59b2210fb47b0a91f25d3d140ab739babd37f18dc62a4;
    Dbl 0x92be443d87a5124f42ae27e2b902db993ea7f6285ccb589460a6cf109b704e4 (-0x26640126adc27ac4b7b7290aaa07fb59751c129ae53eb115f755122ca89952230) 0x541d933fe05bf4031455ecf763e6248116b70f325f7be7a8a8a6121c46d59f 0x5fc641c0996fa98af1d76e1cf360d1d9f11ca59f77a9d7f648c88ad50daa5c4;
    Add 0x1 0xbba8de4e796902ca65eaa20f975e27a9aee95db2b7c7298d54338b46b27e2bf5 (-0xa886f378626f701ff23a475240b51c84fccbaf32abeef7055731a0a1c0885d9) 0x8990242bb6fb1ab367eed33a8dfe0a1063ab28a297489d0653ab07a31e639906 (-0x3b453a71425a76429ddf31348ed0a1f8f9370758675a613d3473928630dcd4b0);
    Dbl 0xad42fc23b8f519c20c20cbda4ff7876612b81f80d70ab88c1cb87f7b3abd3e49 (-0xd079e4abb3f9240d9d99bfaeb3d1a070dcb124ebb0a0a70d0b138d483498846e) 0x75439a4fb800969fe7cf7daf3834a6b6fb4cb73aee4cc4babddd49d45bd84dfd 0x58310efc07fb2ecbcde6e730d0cee970bed7a04aa32eddb2d050ab5c404902b6;
    Dbl 0xf0b42effaebde30afbb7300502dc96f6b16af4d1440394d332328ecd408c3384 0x13d77d1a0a81522bcc9e330c8265e1461d463f3d2fc425498069e2b0ae7fbcdcd 0xe25256f26a24fdd81cb761504b15a63954a08c87f1fd5c1c73614ecb92498a56 (-0x8ce60036f1f09347cd59b6415ba3d91eaf49f4d07ce79d17d879ef079d60c4bb);
    Dbl 0x838adde20c23c9d61d0243b2424966b2bf6af5f337d592446ef34f80fb22b840 (-0x5b93e81235861fe867b42eba5e684a2ae91932d20f186cc179b39d5812ad18d7) 0x43976a699409321f8ad035e6fa1e2aedb1fb933b20f32a665049eec423a54b96 0x29260edf52ca71022e5ef7c10174e5e7f00079024180d500de1c6337eae3318e;
    Dbl 0xf11b8f18b05a16661fc6f221006bafeb8b431e3d899078422e2dc62ae4a831aa 0x278ae641450d892fa043ecb0098aee9dccce17a79bb6471e66afc123ad8aec7d 0xe314e664de504ef80f15dff7aa1a9793cc993da5dd599acd467a0039d76262d2 (-0x4c501a24b3d931243a82f44db6ea706e1bf72129448b335dc51f20ad729e92c9);
    Dbl 0x685c8d6097ae4580f8f9025d2f7d2f36bb9ac019974de2df5bee923c4f10ef08 (-0xb92b1f3df05d41e0b8900e26c41c44f0f5605df6179f8ebd48f86c0cb487fbf7) 0x2a8b545491497d97656a021a8a3d411dc105c393d23a3497c6931414e3fc5d52 0x1cf935ed9b500f6ba3092a76b794c3b57f5f335464e44714c1cec6be45fa2691;
    Dbl 0xe8c41eca212fdd1246641fd0630207c06009b63c8a3622064400b21722655000 (-0x266f374de8f08db1e7e165a10d561a4789a56104d09937551536b8ace71d7ab7) 0xd3a40e0e59019f6998396bac31fff8b3b8120187dced30ed3ab244e267070ff9 (-0x6d8cc0af61965f806e6b2f97291582663d15d2f7ad937a699db9c60bf51f2dd8);
    Add 0x1 0xd2d181a49e522cd0dfb984336e63d39b22381ae60f8219932d88237b98c16d09 (-0x87fbf4613bca6b4e51b6224df9d6ce0727d6bc7c98ea292ad5db9555ec77e8f9) 0xad9c6427b1cd09459a4429de0618308a5c56c0f77b8924030993560305456ea1 0xb741ef580e561718ae6606a56fc4badc1c234486165f3a9b7b2c1d93340d57a;
    Dbl 0x6fe470058196ca02ed3dd2df5f07cd8c7228409a12d5807a95844c18e78ece44 (-0x180cdb32b8946aa5d80abb1087ccd2fd114426d090a3d5807a4d182d4be3378c7) 0x30e7e4fcb21c4e45534e455e5074f0cb24ecab05acf2c1f6ad7025e17dd72663 0x1912c345e389f2d8f5aa1a5c3b672f5442c08da639654ec7ebafdbd60444e899;
    Dbl 0x83094ced00add977d1e8920f7394d38d95fb6e7092ddf0a96ea90eb388089d1e (-0x2d80e2c57c1af1d1286b23d182177544117b14493e7ca2d4320bef1b05beaac4) 0x43128511518c11acb7d11c0f3137388bdaaca1b20f857df93c91c8d7985382d8 0x196dccfdd8cc85f2bedf0b9746a774d93cb267adc15e65d51ceeb004926e921b;
    Dbl 0x1587be06f9d90d1a0d8820a9039da2c55b162642f31b60a6cb61b050cb8951dd (-0x4c5ed50ac6f2cb6b6edcbf56cf6cf6ea69aecb1c13cb420a25e5f759d20cefb3) 0x1cf8d271f3707481060df08d5405d9fc6985600c32b1bb73d398de159692481 (-0xcf15d0531840db354cec589e5f66d46160529dbba45b65e4108f1b02877c51f);
    Add 0x1 0xb57822549baa19e59f7c4bb8162a84133ff313b7611c55da102d0490fe9bb791 (-0x8c6740acba74f891701cf96a3cd74335ea461dd3055155a5d1b38d7bbdafd894) 0x80a318ec58ae265308a2d75c78f5508fd444c26d74079db42b2a80ae413575cf 0x6002217bbaec84a9da16cc585c004f15aa53615c261f5a0e715eb8dd55c2af44;
    Dbl 0x8904e093cec0874bf904a7baca32b58652cec67048a4d065c253820cad7360ea (-0x4dea6eaa71441503df4cbea96c02e648008f94b960e718c03ec00cc6f7cff568) 0x495638764641be71d60341ae9f5d9805fd8d475511dfc870e13b00684453e635 0x380e3456dd9d61db29879a0ccdd5dd8b470f332bcffeee2a78dbbd8df4db21e;
    Dbl 0xebc703409cad9c0a066a4f6227949620cf235ef7252a6a8e4e4a402c2f30110d 0x13eb19b20677d6e915afe18d3aace4512048b58ab59e578c5aa473c42a09fdf44 0xd926faaf874be10d4f0355251dc61c6d03007c9927a8a60115bbbf194386c093 (-0x754904cf1b8fbb6d2c907dea48af53d11138f4eb4582abfefc4abdead64fc004);
    Dbl 0x362ecb518ebd0f934a68d465ad0f3a6c8d079b642b379d5d6a3eec7f06a285d4 (-0x22a6e6e87842a72e975fe3b84dcc7c96a32f8cd259ba0edf8a7408f2b568e3c4f) 0xb77c654267947335cb9fa99547103670645121dbf2d80b83fa3a181ddbeb54d 0x18c19ad4600eff781768c566e77a255403f766a3c3c78ae86a67c96de5f68b5c;
    Dbl 0x6d521b384a3141fc766c80cfdb237ef04af606973780d6230d153f61f6bf6d9 (-0x9f46fa161dc17a903ae53c673297544bc66779da592cb9aa4d1ad2492d2d7c2a) 0x2eaf058390d16b49c25e518c42e55ea9810ae308e4c4f54f777fc91a201529 (-0x2195902733ddd559081a677835b825aac781ecf74c51b1d1158e6e263d2e43c);
    Add 0x1 0x40911248baa96740c1fede473829659c7e6827a1d74ee9bc5484211f5ccf3fcc (-0x2498fcf5b717fc255ace2233f5ccb53e3cc7e165df9a59e103c54342eceef57c) 0x1048db5a254f51cad7944d7ece0155253302cec3023885565b478b7b678a29a2 0x2ed35b1bd775776e3e0cafcb4e35d8ece5d25caa0316b5236c7528a3a2e11ce0;
    Dbl 0xeab2d6d6fae35418207acb4327ab71c7362f42d7ca18527f54142ac6e43cc7e5 0x1011838963adb905dceda8879f5ae5107c511b9cd9af939d08ee8a1d00db27470 0xd72b6db15114078ad88b66a53d6d5e02ed7ab630c832e0d4695ac32b06c46254 (-0x252db6b5b77ec7b926d3fead011360e25e55dcbc83fd0e74a7dbd5395b11f389) ].
Lemma chain_SM2_ok :
  run (c_P SM2P256V1) (-3) mulp_SM2 (c_Gx SM2P256V1) (c_Gy SM2P256V1) (1, c_Gx SM2P256V1, c_Gy SM2P256V1) chain_SM2 =
  Some (c_N SM2P256V1 - 1, c_Gx SM2P256V1, c_P SM2P256V1 - c_Gy SM2P256V1).
Proof. vm_cast_no_check (eq_refl (Some (c_N SM2P256V1 - 1, c_Gx SM2P256V1, c_P SM2P256V1 - c_Gy SM2P256V1))). Qed.
