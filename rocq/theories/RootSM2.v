(** * RootSM2: x^3 - 3x + b has no root modulo p on the curve SM2P256V1, step by step

    Written by tools/mkroot.py: x^p modulo x^3 - 3x + b by squarings, each with quotients by p
    (CurveRoot.rrun1), and the coefficients of 1 = A (x^p - x) + B (x^3 - 3x + b). *)
From Coq Require Import ZArith List Bool Lia.
From Verif Require Import Curves ChainSM2 CurveRoot.
Import ListNotations.
Open Scope Z_scope.

Definition root_SM2 : list rstep :=
  [ (true, 0x0, 0x0, 0x0, 0x0, 0x0, (-0x1), 0x0);
    (true, 0x0, 0x0, 0xb4b5feed86a21f6f30500c12ca957527989a585877e2472da792d960cb92b82d, 0x5, 0x0, (-0x2), 0x0);
    (true, 0xdffbefa06e619b4ae19289755dab4d4576c1d862a19a3ccfaeb717241df8424, 0x6e96b6e0267fe4ec7ecc6918b2bcee8d38c204f007a8b488e2eceacf555102, 0x3d2f3933db3aec256de2353278edfaeab831c00ce4a2a8a26eee0a294105091b, 0x980d4f9946a5943adca0ed642d50511162f14441c4d4e2d2d54094b6b316ed3d, 0x7d39ac3a72833850af5183bf43f60572bc0ddb3db2d0810119e778ba6ddb8bbd, (-0x233655b99c32d493b01cdbc7bfd95f67fdfe47f45f855ce403241f1d9fb8fa6b), 0x2);
    (true, 0x1c02c37dd8c2100e1bdd81470b849f33a6217dd2e8d1f5b1a6457c65dc68bce85, 0xddf63a290ae891e0a17bd4eb5f6e5e953aaeb53a55051a3fc7b13e1a7f6de8c5, 0x50e1fc679a64d6fefea59a6e69dbfcdd66d88d7dea2cc02981fbd6dc25af99be, 0x128154e3c0d7bff0d442d288c8a7fecde5324e1c53b91559c5a7a923219f3d5fc, 0x21018763466bafd05271bcf7cc937b33f61de28dd323ace9d0fce23edb1fd90be, (-0xf07f7a57fbfb9d83fdb482358710a4c38767b5a3b0f6729b4a8e8dcd4532f1d), 0x1);
    (true, 0x32cc8b172ca57911755f35e35283ddb343c7df92a6b65581151779e5dd06d94c, 0x5676535e82b81ac127b93cbe80f00773218f6a7f13cf348a3ca38e1d66763f4, 0x142484067f0e089cf53486e965473e9e83cce7d8ba58e980c963f4baf1388077, 0x93429b5d4ab85dbd76616f5a5526f533b5d57cda4e37c023254007d6ca15e6f0, 0x9b3452a79ae014ccad6933a75d274f3cbc41564edabf629323da2cb1d844872d, (-0x1f3d74cb41fdaef35fa4be2d9d759f5cefbce1866b5193e285a672d124514e05), 0x2);
    (true, 0x4fb6ace2d07c29f43cf0f3752b57990d2b495a9c7b2556157fac2a0f6f76adb5, 0xaba09c22017bff13841ef6a1dedf993048e84b9abeb7308325f9a0eaf1d3dda, (-0x54d21bab0f575c9660b314d0222124f501574981d145a073a122c78c7824784), 0x1ba4a185b0683bc7183b47469dbacd885e941e9df63b29c4931825be4e1786c0, 0x9e4f7d6799d48afbe77e25670076eea0155fad605105e9248f524cb75b5f0c43, (-0x1b45de7bda543bafc944e5d4b0127a1ac2721ec15cdbcb78367115cbf27433ef), 0x2);
    (true, 0x8aeaee3b6269823e17dad88b9c8d276e608a95456bd69e7f52ca5a31679d3fc3, 0x1c713182e8a0f6bf060db260e33886e2a8ceef0ad5df8925f6c8689cec75df02, (-0x884a1fb83c65b532be22c3d575b305d2e7c2526b50e8e783c7d72c6a91b6329), 0x1b1d60925c1b4225178fc7d0b3c759c71b066aea53de5433b99178071a3f3e1b, 0xb8c73778d0738d35f31df8ad1ebdd6b0b523425585652fb9b13ce34e878e9098, (-0x1e94465f5d8ed7be3fae60b98eb12d1d58d8cff4a7722b765348111a3f64385c), 0x3);
    (true, 0x7e0591958b07b6c2d6353100ce6660eb5cfe78db427d45d14401ecfa7bb9ab8, 0x7364c4b4aa0459f75a212d1f96f803e56f95fa15fa2c22596896a5dbfd48b6ee, (-0x65c519120ef01d08eaa83532b2f9829a2b7b2fa353bdd584631c18eb5c1afd7), (-0x4cce25dd8aa89715b3d64ba9e913bc2bdb2d564f40be412255d556e76baafbe), 0x79e82e86eb35b602622cfdbbc5e8471dff3bf7def5d0f8fb98625f49abb7ddaa, (-0x7fc3360e500936294428e53323f2e1cb40c92d83a8a0f96f96e93f0a0cb2450), 0x0);
    (true, 0x10ef2d89b774fe132cf9b26604ab2eb98567210257311ab603042ec863b4a3cf7, 0xb6f78764189c320e4b07c9df8a27a1fe396e926ddbf76f99567fd678a4ab45e0, (-0x220d31350f059556460f0385b75f45149852ac13600525dc9a7592156ffe7185), (-0x12c39292f793e587220861dae32548c72d4687f4314397e5083883c55aba50b0), 0x708ae47102cfe69fc86683ebc6024aba6aa647d628d0c4eeefe6b58a2ab19dec, (-0x105c415be7b0284ad65e6ef48d848191084567ac23385e454359190a1a15e900), 0x1);
    (true, 0xad0667dfdc6ca20a37acffc455aee72bb4bb6966047f02a6de172cb7b3c12c8f, 0x4d8d3da9b633f2f05584b3829441b31e74c7f528ab477e5b37ab849393ff3bb5, 0xbae517d16458e9df13f71508ba1e42697f0232ff0663c8371fece8135ae2ec57, 0x102f6adf19bc85302a11ffce4668f0daea8902f4677b9ea72cb6bf1d29b270d9c, 0x16995d5d60503b4d8ce499aba822777478b74d504da5703b7b063f5b5bfecba7d, (-0x27146810ea6dc31314a4ea8b69c79b6227d42ecc97eff904da6fd76a204ab977), 0x3);
    (true, 0x5140f338059ed7ee42749363332e6ead1c2a34bc67217191205311f3a6623128, 0x11c01487fc02c6f40240d78694bad3203b85936960b75d63e2b80d7a015ad521, 0x2be8f57a8fb33ee03459cd718adb1809fdd9f4169e5f67d734802493f43b020c, 0x9e4148524640fe583af2362dfa2f3396f8880f901819014325d3b0a7524af6e8, 0xa88d75d536aaf9d6dbdd2b95c28f435a35bbcc3e96f8f4d81ca2b0483a1efbe7, (-0x30faaf0198f85bcecf7d0db7bca4700a7154d0d88e22f5ed0dd3cef7bdb1748), 0x0);
    (true, 0x989ff9047f27f539e18dc87a2c27c87b43dceccd28de7ff1b3d3ded4aa28c1a3, 0x63b30451b3c3047b52f66a691e665cd8bca643c459ebdf65edcbf3ac5d3bd500, (-0x295cce50fe169e28b3df3d47a0f7c53c84a13359472216ad1a86e185917106c), 0x34d50db76aee4eaf29457a9669503cd1d03e4f8ac2c739612dcf19769ea2cb7a, 0x93a899057765f945ff17344c404570bed0a455316c22c136332cc8a01088cbcb, (-0x4e9919bb55b81369cfd3633b103a2364aa95b7f576095d653c3c4160da54d45), 0x0);
    (true, 0x469791d2bd88ef39413b37d861f4fa92cb3161d05b56a5cd35a9ed16ee0ff66b, 0x5143686421cb262fdba816adc63961dc0831db9503970bee30359c3853da8d9, 0x81ea2e3babfc1cb106f62e7d3abfea55a913af1afc60d66866d8ac595f61b218, 0x1768aa1f85a78d908e8eaca03814616e8dd6046af2a45e1b7dc9fbf32357c7047, 0x12c141f54b287ac21eecd96b5a6e14afebadaf3c1d7665b9743a2e6fc41dab43c, (-0x2727745db81f54971b5257c713bbffe86e9beec171f1a03175d1b0f75c44ea59), 0x3);
    (true, 0x440a65b1deedc353b150a015696d8149a3d19f106c321576af32f53382307c4c, 0x6c33f60cc65f7a173b18dc92cb7a9b8d8f44d71b34015ac131b742f24962c4d8, (-0x7c9b858aafd25683d4b0daba96e2bce4829edf321a994e2e0246bd33418a909), (-0xd10d8ac2fce4fdb99e5bb424bfef425244a78a2fa7550ab1ff4e7381bc9a667), 0x245b0f9fa386e2d9625dfa385962e9a1b79583eae52c8eb1ff693fde1b786506, (-0x11271a87b9f7f4acb20c2d20756199951412c62e663b20cd922a857b747d8183), 0x2);
    (true, 0x48c7ef7073617d5cba0b250699ad0333eb4ba9a8f0066ba8090b2b7ac0038ebc, 0x849a0605d0ccffe4d93849537203551a880307dd30cfb53660ee2c073c0dee6c, (-0x1fc05e9432af125a244c9cc71fb8f51134141df1172d0f60734af2ae8f90d887), (-0x1acf8d45df50bdfbcee98ece1dffc0902776b840147dc099187fcece078d9e92), 0xa51da6bb73d601299368d23c4f62a8048f87c6fc95d32d80b0cf470bed64398, (-0xc82236430cdf42a60497fc47cddf1af9a92dc3c3ee39b849c8598b51604967c), 0x1);
    (true, 0x65ecdd7b46f70878297a5e76acef1d941e5c2b667f7763efd27987d11726671, 0x6f569760731f0bc40f191fe8cfbd41a64b16bb1104ed1994a0002d512dd6b9bf, 0xc820ab3733c4d7e515b2515a4b70aa8853a6df774543e78766f3401f68fcf9b5, (-0xd0fd1936a489494df6deac91607393504292ee8db084bdf56ea6c20d8eeda89), 0x12be54aea428a99b807b06b61d5ccd70473f38cb46e858ee09e330eb58be042ab, (-0xa26a12089c36a529d50a623f1cd6fd3dd541126f21c034a58e2dc3f9f38d73d), 0x0);
    (true, 0x1103a1e4150010eea354f23520c967d64f476e2dff90b911441a49587bf5fe682, 0x5d3f2aa6f43dac87fc29b806590272880c9ed5b7e227155726fed609f87ecd55, 0xc8d632eaa944e9c474c5859c7a607571ca39ef6d9d3be09a2534241dc8860ff1, 0x1909befd2d4bee7ede2ffb4e196b8e9ce10a60f5822053b29d0d49cb31ea68859, 0x1dc61510ce920a6d477c84f2237a19a183db132986a0ebf159fd3cbb651a175f1, (-0x23e5565f722d1e138992684ffec4fe518d363cd4a5be28e227fe90016b630200), 0x3);
    (true, 0xa251329c6872433a41ab9986dd14ea1f35cd18d467a36be51313a86f0881b1d7, 0xdf90da1a53bcfc3947642deca7014af98bb758d8a74c0ee9be0c145cd5300640, 0x5bf245cb542ab88e9d5da0e0ab20228c29436887ae82bd4fc054c27a753298d4, 0x5bad5d2e316ed23d1b93b6332e999fc2d9e21c2126d1de5c42bdebbf577e4773, 0x160dece636a112192cb1b8ec596525bcfaf5c81b02ca12e45d1b74f5cbaf3a0cf, (-0x1c68d26ad682b95b0ffe5bac747d503ef9ad26616ce772c8c8f2af3ee28a8358), 0x2);
    (true, 0x12b7fff9a50dbc6d1088ea02fcd93222a714b487022a48f3b93227723a4841a7, 0x1ac97680e537f7cd0f4019d9f4dedf4a50fd2850fde1da89fba853937c2f6f18, 0x3e3b5f4668c6d34b144dd7604d9ca50cda304c06864d7f451ab8bf0522fb4931, 0x7ede214155c4a33633284fcd4d0e7158874f617689a76934eac3b2096792b03, 0x54fe983714e05f7b597641ed62919dfaa9e6df37e4f0a83d80e39f40ecc662c8, (-0x1b8d16a2338d09f1c065fe309ac64aa5bf1259b41782a32091f28c2bfd883e62), 0x2);
    (true, 0x5eed49ef4a411ea0883679eaa520f2915438896cedafcea3f203ffeb237093eb, 0x25c6ee3c0be796e13d632b07259098f86934d6c720ecab0b103cbd890af10412, 0x712826fe85f9191ec5b76c8e6e2db5842a4b5303fb16b19b25e2569be37f2e29, 0x98a2f0ca1d2d8e1f79b6295ecd693ae2b43138d1e3ebb177be486e06bce41eb2, 0xc00260de5bc017732aad7ab32f6646ccdff32a7f7ce2d8e6a9a11188e3d3fce4, (-0x115ee67485d7055cbe32c1e461ecf66c85b5434a5474920bb838f19b732730c5), 0x1);
    (true, 0x23dcd2f965c062f77fe13c6f6c8b9f7b40040ada94a847dfd0eee220a694bd4, 0x2256743338d88f98101272cd274a3d8b60b469d9592e9dbe19eca1c694042, 0xde048dc84c30d5e9ab799fa1345bd944e5745c12fb34ed0edf08cef561af73f7, 0x16fa831f0521d7f2087b7bada17710d60988a477468e1d2e8fc923bc150eec7c3, 0x989d714fb5f4f5aaab1228df1e7436218eb6b161546bf04aa61e66d3dd18e433, (-0x636cbf7fcb21c5fd04a9b23bda3f4dd81bcac7b3b9122f676f370c52ff46de3), 0x1);
    (true, 0xa220463e05b4293852036f471fad57eb19fcd7bf43affb8e0444f500f4a95f6, 0x7c5bcc4297be4dcebcfe0deb940a163ba433fb593a2c68cf69c239bf01c7a5a3, 0x1c24b091975b4cc948ba3979d0f240a6e20f604bc42953725bc33d2ac92eb556, (-0x2cb0306cbd5212f2c605f21f1cbde6efe938542c7ef7b90eb1ce4b84d21b5d4), 0xa1ccfdef74bcea4b8814daef9bead1749344a089af2f2a5058a38eb77cf787d0, (-0xc883809c80889b272c15567c7a4367c2687a3e5320fd11468cf77b9b922d609), 0x1);
    (true, 0xa6c8b2703683f63687df7602dc4ecee2951ac611198fbb2575be0bdfcbc70f46, 0x214edeef4531506e0e8e916a51fb5be92a410fe98fe71f0cf6ed486f946f4298, 0x14c1b2a6397b878b199eda1be9c8f9b568a8ff7b65e4ec34234745e142fae9c, 0x6da1709c0d1d051dc43452f3e166ff06b731401b67fc6b14b4839c69506e9853, 0x10a7c177c3d7704155ed66570656c0537815c8ea4809d24621a3c618907a2a271, (-0x16a3cd93333c03b7d79d418f50cb7e32fbcb016507a90a2c99befb493bb7a8f0), 0x2);
    (true, 0x193554f0c27ce6c5eb44321171b4f716767d9f9c830504f419081dc2f9eb9d14, 0x18b8bebc39c884c007c134eb7fecbe328c913734d1a0768fd2c41ee5d219d08, 0x867fd3b2941b32257a1a28ed9c218afc65458de7e668ca927afa17c3599d812b, 0xee828bc28832740b9faa112156739294fdc0db44faeb2b11d2f930211f73c1bb, 0x85dec423a3341285af2a5a0406e312a52110eb4303d2753796f5b8f6a4b11a7d, (-0x22895438d6e140051cba3641f0b9d178ba275e9f700684435ae2140ee0a43989), 0x3);
    (true, 0x4eef387f9638a978aeba8053ffd0177b86de220f91a391543d44404822ba9c2, 0x108bdbf6d35c11816148e9ff57b1ccf935776776a5e5ed95f2670545a1fec7b, 0x3391483f84e01fba03bb8848f24fb699b80ac096b8aa0e46170bb7c83c4c11f, (-0x1306493713f5749b285c9b645ce7c7fe195db61558bf9d66fefd758b01ea5049), 0x9a547712fd75b1e758270fbfcf56e6f8028fa8be35f73cdfed4a17ff73c8f9f, (-0xedaabc4868eb04e916608f72ae72cfb7c7a3f957a22a3e488f3a7e3271c391f), 0x1);
    (true, 0xffa5312a91ccd8b311f9481693dadc025ad0ff8d17b0cbc452b5c0fccc22b497, 0xb20c353a216f4d7ff229572d920eebaed77c27973dc8731fa9ce7c8d41887827, 0x1f47f65b8b3520497d2cc574311b3600672eee40ecc9dc2e41b4c7ae8e130c37, 0x5529f1fce6f3e8ae21a354c9aac3c875ab642f00d9601363c279d2c30183f245, 0x1074e60565c39ace5f7c632cb9f3676a89b439e2724ae8424040b4853194c121a, (-0x3e6fb97a1e95a4649e4b7968b2dafee9ee9a80df364467b6caae68c5a5c5dbc), 0x0);
    (true, 0x27ed9fbc09d496ee92504d38faa25b4d04101d71b67d897ca3355e85f5efe73f, 0x550373836e2062cf5374c732e84ac5a8329a2fc56efb5016a94ca334a4afccd, 0x5cf8af9cc7a474b04f871c7a685f7f1a58983f174fdfc9ca8b6e7f83144079f1, 0xa56926e3b84cade9d8a9210189426093e46b34a3fbd10016154fd333080ae30a, 0x7ed74cdd08ffa27a91396e15f53d53fb48420c4ff7463ff80dc1d43d81268a55, (-0x15a7c65ee7cbdc782c2131e4d9309c0b584b9995b3c90fa87171e09cddbca9bb), 0x2);
    (true, 0x1601374f9d92194f2444fa6377f460329efb91690c02c8c120902b2fb58f1c33, 0x57f7f1a898c962bf6a89fc1f7f7a6819dc90dd7bb27e4eb67093cc1c80937594, (-0x9b3522bdbb120e23dd764748e7662d7f8e3436ac5884325a5197b840634ca75), (-0x79db9cb38a3cfcd74701b3b6f5b8d5ea3cbcd4ec7b4b0f9a9218cfe76bdad3e), 0x4937bd1687672ca8ee15c83a2c4c7ef145922d01aeaeefaf6799ef2158d222bc, (-0x1ed13529346d9ae508f9f9e3597cb742765dc17a391ee5f8e88a9625d4e86cb), 0x0);
    (true, 0x54ce6c68e654caaf391cf7053ef006c919cc1abf9c93bfed0c4e62bc4c5bdfc4, 0x6738fbd1d1a2cd99393482f5931ff0b47bf500791d3b73cd9acc6936ed8ebba5, 0x496021428e3151285964589b393a81ee9d0342e64143af83d6f54d0ac77512ee, 0x2f66b00754f584220e62a73ed63adf70875468d271df6584e1437c40969e8d03, 0xe1930578aae79880bfd8456a468ec6d809bea0d352f4ba5fffd7f24581f7aa15, (-0x14e62e990d1c66bdc8876a9d768a6287ce65b6409e7c503c1ed319f48dbbc9e1), 0x1);
    (true, 0x1327f783badf56dbd94fd5d26923353799fb0b884c72795f431f669f50d33e5dd, 0x8893583f41243263f60136d8f26673c3015be785384cc86fc48bb328b08a32cf, 0xd2bfe28c68b086339fad6fe000af005e84da89244b8c3d01c883afc8782fc78d, 0x16f9827e46caf8cc13b10864a1bbfbd0b23bf2b7f66113aed14d4d386274d5624, 0x211dfdc896aeacb9da77a89deb9cbb70b203de1f16003da2584a52e124646bdb1, (-0x1880ac79cb6537ae7dd299bc6280206b442f418bb88571f6fed6459b546e71d5), 0x2);
    (false, 0x2abe5cdd656dc449bd45832147ea8228ef0b4afc9524e012f39a247c6050e48c, 0x1684efd3702c0be4adfdcc81f6a7fd20b55fb4fac70863cc85a3cfe508f4e498, (-0x20a2af3249deb3b993dc15dc442c005957ea42bb327a40d41b790b76a74b12df), (-0x6f692eef2e8f1a765e2859a55a58f78bc1b2d53845eeb457c521aefabb8d286), 0x2012f97f63102903cde0eb8c8526bcf89d3a3a6d4814115a264e17b0685d592a, 0x0, 0x0);
    (true, 0x48420bf9ec1007f05049526f9386b1543e6a135126b14821f03dc4b412b5d145, 0x6760040577e06dd1de213aa83bf048187ea238801c49c62d6421363bfc8cd3b, 0xd8b1ec60ca0ef33535a13bcb6f5207ac0249aeb776a550841f10a48bdd0700e1, 0x1b61671ef24f91e4c7702a289d2ed07a90fdeed9ce2c50f0137ccab260f91548e, 0x11a243d68d9da98a63b4816b9e1814aebb5dd9c2b25eee84c9a41ba98221b65f0, (-0x18f4c2b5e312f17be48c3e8eeb98f3a98fff4e7d7c8e79610760acedd14ddf48), 0x1);
    (true, 0x195eccc7406eed05c221fbd0b76bbafad0feff1207786a5827ab245481bb73270, 0xd072a73e269ffea4c0e298b9de7b523d0d0e3886259f08e34cd26bac99e9a7e9, 0x5cda54b0e8cb4ac5e82480b0009b951b9f6a8d5fee82e173ee925332894aa68a, 0xf40775e5de433c135bbeab5181d4df67f51dfd8dd22234185ffd924c517caa51, 0x1e731927927a390848f13ed36469f10a2ae103bb7039a241df9b59992582325bb, (-0x18dfc5d925318e2e695337deb3a8f73c67d250c6a50a04426a52abc33f0101fc), 0x2);
    (true, 0x697ec5f0987e900451bf750a110507ae63bb6ec91a4357835fc40491cd2385d2, 0x6ec09d240890e4893fa235186ff877e9764444810a08f240abdb4db88ad1d909, (-0x63ac086aba9f5e2b6adc05d9b0459e8c474a2d5f6935bae94f2dc45b111c067), 0x16aa2ef7f23131fa9a8ce5a66a4178a7c553bd85546d0d16eeb8b4427f6b7e6, 0x42cb8c78624a81059f3aa79277da0beb5c865435d608fe3c3c7f238151d41d8c, (-0x1ba30ca60448ec9a78d862aec7b63e06096d57f768fa114b6f00302ecc33a2a4), 0x2);
    (true, 0x110418882cc992f18e3619e58ff5ea671d027acf64bb06c06888a56ef6fadc9bc, 0x8b9304d199b79fa80752cdf5b0b78893593760e234cecc8a03cd86127aa8f515, 0x3d2c78df83fe0df131dd7956447c755cab97871139c9aa723695d93f20748b3e, 0xb26f9ee1fed33f3c280f37ffcc460a13fc101ec7e7ba49f4e63d7b1980d4b90f, 0x15f7876e250ab9b6a6693845f31c16de550e695a4faabfbfde96c0b4af29707af, (-0x1669be87b2bf3180d58e1116ad658a407f0286aeb11d16554bba2e7de09b4ca5), 0x2);
    (true, 0x7d59e67b0fc5d70167cd2fc32dd271667bdebb656fccddec92e68b7b842a269e, 0xb82712d0c0c608c4cb238b88200fb99409d580c19032beb423a35b515e07cbc7, 0x7c3360a18bd7949352bf40b1fe3b265c28ee7e58941dee8e0c55d404a8cd1ca, 0x1724d4165245eac0f0b1aada1db8fed6dc4001422395cb9650f10c4708028ff9, 0x6aeb856135dd81efa135804001ea38ea96871f201b26b1719c7f523f52668472, (-0x1d9ed338516483bb01b96fdb356d020098ee19d93a52badb4313e60811af2cee), 0x3);
    (true, 0x270ddb20c707ce11181def247c358012eda46ddde94ca6ac4e2c2dc4a079fa14, 0x7052cae728e851e1e5b20dd9ae8c34e86ccad205e210a89a7785ed3c7501e4c8, (-0xdacc0ac06347f855b9b7774461fc899239fb81f04ef985387436f007ddc6355), (-0x1be4c6f161a7688f5bd15ab60acf494fc5abe2bf739fd2fdd9546df9a7f9e07c), 0x41f2eebec7f6d97e0d86d975d67da7799bd237f7017f0fccac5f023ec708c228, (-0x16fbb871b6c397e4b24c7c99431ac8c4a1b7cdcd897308c403f3da5c16cd2264), 0x1);
    (true, 0x32e506eb6e6a98e9c10dd3f0d897ed69273dfa6e6deff844ce865235fb9eac84, 0x3160317d8ac54a30f7a733aaa5c209d1270c937d5c22d64de26f14ddad70c2d, 0x8c944c9cd391b97094783f3030160d31baf5e93b9e3ce291e93073a63a5b60d7, 0x16a91a3f1b5fd986deee2a5fb33b6b906a685226e98ec7e876c7d080702fc363f, 0xffae6e742115ec3d9faca946ac9e1f22df3707ff5c617e32d2a483d668eae90b, (-0x24d0a7e1ef5732c60e0e3e1129917a28a96122b7cc473b26ceb4f92781fad93d), 0x3);
    (true, 0x866e3f2abb745800a2352907f0a299d59d4ca2c9acfc85bc6a83f1896354ec2d, 0x247537f90ebb2c778e90df78fcdea5cbefc043be0d4f15811cb68f801053ead4, (-0x15b08bf177a4fe5ea44869969ab29b01d74745ec4373c2c2eff906280fe51bf2), 0x202473292207adac4fa85d2fa44dbdf0e6e42027fac814647e7ae5a871693566, 0x9a8ad00a005f8c7cab560117b9251baae8b523b353b52211dee2153bd30b7530, (-0x219ecc4aeae45d44e5784bb3c1587896f2b9e679f25c303404247dfdd8f58d1), 0x1);
    (true, 0x15c4c200be416b76b777477d81f293b90e6675646de80361e606c57c3836694c, 0x21c8b1bf9b0184268aaeda41c1254fc1060450e2881498156df03b300441f228, 0xd71a6f3c300fe1b9caff27238999a3c129e3b5b03b44a06c4fee98efad25d550, 0x251838e3164d801d6393d9908e3511bd0722f2e033798230825552ea19e95755, 0xb3ab95a22498d83180092378cd8e4f78504f3aa0d56947af50d41b1128504332, (-0x1b8ce3d08cb61bcba969df07d94c617512b93297b05b32fe36801815380d70bc), 0x2);
    (true, 0xf50b7d32fbe97d850a4869d05bfb5410d74a08ccb6749d44b1d90b6981e082ff, 0x81f212dda3f27222ff4157b574e9146a9ad386cae8e6b20f195a595738bd396a, 0x74718b25f5211177ae49495af636275c4d15603799c2b1d724755887137bfd92, 0xf4621a01491e7093b5b3611d21dfb1b90633b1608fe6a8152ea66e56dca4b680, 0x1776670de44c01269faccd7365fbd2305201970b63441316dd391c15e86e230fc, (-0x2c1af957bee608bc4c4af20ed2e89ab77831289d9d5d561764849b706f798c4), 0x0);
    (true, 0x14617edeabcb707cba80eb486a9fb377a7f37ad09c65e4bcbb7a9aa925c7cf6, 0x288a3691cb217df1397b89b9b4976f00e482e9f07f2cde428a14c207ae807, 0x5e0e6afbb2c67bcf36e1f4c0bec705297c5f5ac5e6a62c9c625aee21d7b66eb1, 0x7f2fcde6541968677114cec2f507dae618a2fdebe2d483e84af0dfdd3ad1543e, 0x2b282134137f9fbc1da059cb12bfc74eb5ab4bedc249aebd3bcbe3f42f16c0e2, (-0xb63201e4a96d4e3234e6ad710354a697999c7e22f6fd8be4552d44890543b85), 0x0);
    (true, 0x18ba4fa0f4983c24c30b6780a1ad020f9b9a131379b7f444c334084b4c0908c89, 0xd8b1726f179a40dcc640738273dfdf0c17ab8be7b517616dcbd676cfdbdb04d4, (-0x1fe615aa58a380f81eae6e03bbfd7806d33daa927336fc68627a3b6cf495e2f), 0x69a3ea0132cd7a0615434a2ccab79af78213283a88f1c3d1741fc5d3a72cbb6b, 0x133b877011d0323cddd7a8e295de6b9769dd71328efe28dd6b896a154dfc04619, (-0x3667e3a17ab3cf97b7700ef846e0af10c8dcb90fdb8c1524f0a7e000a730942), 0x0);
    (true, 0x813a7366595168b370b9a72d982b6c564b1580ded7780bded1e75b0db05644f1, 0x2b370fe86d5ca12ba6faabd11ae2b85b82d014b2193c5198c460bcf9665df148, (-0x24c614d7a2ae0d25249b76c8f3481a0c5ec4bf9572242c975ab0a630ff69305e), (-0x5607ea7f30bdf3c8e014cee3a6cceee51475d12464b2ae0a4601eab9712cb51), 0x74e1e0cec33d9fa09eee3a46fc45ad756d89f986a9e35e233c8a3032ab6d9b65, (-0xbd8fa5ab459d8faece3a0ea9160951fa63b318e24c2d5fb1b73a1e44901014a), 0x1);
    (true, 0x194eecd19cfd7b287fc72e020ca66189ab18ea0ae7c058d11dd5fd791c05ef5ed, 0xda360debc2c8978dafb5f6a756170f227d94dd1b1aeae237ad052a3bfa5bb862, 0x6b260e5b802ff6f2052d4fc5ae60bdbb93de2fd744dd82d0ae0ccbc65f6f8c1, 0x8b9b94bf36df1b5d9fba15ecf302588bfe2d9c9d7257f2163c758b2dafd6abb9, 0x16eef21f8e1929ebdc21e79e53546f637d65d715ad740448c64c37247b9fbea2c, (-0x148d86b5542d793bfa777031a36e5987cd2becd691a3f2fd788a7973dfea68b5), 0x2);
    (true, 0x3cc3a938cda83819d650ffd41060f6e4f47c608a15016b0efb2c9b07af957952, 0xe352ac373d97875ce71cd43c08c934ba148f27bfbde71306283e6afc7d34be2, (-0x11b923e4e8a15c017745c3378da57aa47a72544e466ba13bbe4ddffa80205ec7), 0x3ec582b0e3941e18ebc0becfdc64cd9f263aa91daeb1ed01bf63417daaa8e230, 0x5f6eb20c2cd9e07e4623677ef59848e5885deaa8c06615d0cdfca85af5b8b839, (-0xf55e00018fa53bb99f13c5c23219df155e450590aafcd57f397fc35b391a434), 0x2);
    (true, 0x21fa00162547837fe0bd0a8a2d1db94005f500ed2f3d4fa83f5a3e3951af6d3, 0x9ae16b1a1f2265c0143a75e8a3f16286b607a8a5a624cf59bcf3fa1570bc7a, (-0x21c69ee3c38c0f45616e56506014c6e139bec1c62ea3b69dbc03d92739bc0e36), (-0x9d3ef90d32f1969f2f374df6034d38bff3d08c0f2135df1a353eabf3a379e99), 0x2ec12668e94b122bc28365754fd03e808b9ceb0cacb424384d0702b88703993, (-0xbeca81f2b55dfd5fe934aaf35295b1e4b5ca3b2ac5f8d37a475ed651ddf0147), 0x1);
    (true, 0x7e9d59da249495befb4231f8524338e4f2a2e0e7a9ace12755a44b84603940aa, 0xfc8e8d9ec5849acee5599a7140274688545be29bdaa570c2bb47d005a1bceee9, 0x564024c72d95511e8eb129f9a62ee84ff969fbc26b07dbdc5d486ad80b0e6185, 0x2eb42903ed7eb48dae1b7b074ba51e46adab6a9ce31d6b965bbcabb3b2571319, 0x153fe67c3e1e0b3d9bde9f4eddde971dd557362fae882b7f6c0f2cddc3a52608e, (-0xa306e6c91ba120e2bffea4a4751e2e37daa382e428a5856af3b4048387a59c4), 0x1);
    (true, 0x149f2034aefcc64dc7299261367cc3222bad67bbb14bc82b82d28bee99e4004e, 0x7860aa9a2afd05ded0b073a527fae8ef782a3cd3bac3631f44a744f420faf64, 0x4b58700614765292e8d5d3586829a4c3e90e3c997ecdf8c0b10b934867756180, 0x2be7101b3b712432bd604f67b992488118fb88bf8660b87a83b2ca1362415f85, 0x45f72603a72b5f192cb861187c1f6f101f04757bef4da4a4b4b46ab60247469a, (-0x1b366162d3ee4916cf32e61b5cb61c8eab01251cb6021e69fd294d71741de10), 0x0);
    (true, 0xc7ba9ed8002e02410b5e5d4f701c57947b821afeb769d0a5c70064c6c5e25714, 0x78411919187f2a2548fae7bf73c2238b70aeb8b6da3bb5ae17545408c71b0eba, 0xc83c8297ad4861989edf5b514c306a6e9c10e8117ebe99dcca8767583fa48bc0, 0x1111502136252f5b063dcfb2a8ce072550057ef296650322c94240861f5e0e1de, 0x19e8785f7a348f5c42186f99c41495ea0fc7f91af2943a765779d1c759e7434b4, (-0x289f7030b9964540e8786d2a009b740904ebdb0aa337e0c8e49887c0b6300897), 0x3);
    (true, 0x474ef20121bd39e06e054118990de7564e23a7e0ce98e10295b16573c2201069, 0xbbc6c3a84e8e576aa4e1522d2f59005ab41d69e1dcddfcdd7869937b593ae35, (-0x1a2b7b04b12b73c6d8658f9397e372021c6e4d73dd1d61bb52d17b94741d09ba), 0x2a08f003890bf49aaf41ecc9cc5db7edad27079a7c4540ca3cfd737ec186fdb7, 0x8476e3fa246e02930ad3730523d7a950a850dd1d9d566e3f3492eee830d703f8, (-0x28615305f62abac7d837b0378edb1bf42bd9c9e682d56146197111e7cda9de7a), 0x2);
    (true, 0x1c7f5f7fe9032421a01118c06386412fda204c3ae89dff712783d0ce6be062977, 0xda94ea329613570a2e6f91fad4e17770e0f5a4d59d62999046b79fe73dd1bb9a, (-0x127ba166813ebfc85ce58ae74b38bfb96e748629dfdeeade6222ab6d6603aaa4), 0x1367d8a1424879de89b706cfe86b8c733f0a89ec223d50959c2a3e9e16b7c7f0, 0x12565377c5fde9aef17170183b62d24cd1023115ec39d17fdf6fbc8b48969fac4, (-0x2a7c5621c9ab600ad44c270daac0835ba5e0b504c719aa7043344863293dd2d), 0x0);
    (true, 0x6ad031087e7925116b22536d7f4cad4be2eb867a168982bdb322e55551a1217a, 0x50096201cf8532cfb89a3b2980cec52d7e6010ba98a51c5956a6746fc6c4945f, 0x4635bce7068980cab80daa2b5290ff90473ca63cbdf7fa2a294f21833ffd3987, 0x6181413d7a841e7dda2565ad2a07b0a6a3287f159bd337bd762a283764efca84, 0xdbf442eff8351bbe4b5328c47d8209742df8fc6f75eba0532632deb69e0636fe, (-0x111da0f0b54a679c8131aa275d72ffa1a5ea449c8ad5f310db02b32af91d0c), 0x0);
    (true, 0x14c39d1b921515773f8ea883fd1375bd8291eaf986d8752304b7a0fc7f8ce39f4, 0xd37f8855e97aa53cdc4cdc17b529616b019d240462157a56e6c4462dfd2efe50, 0x1f31151a0a1869b7461ac54b601952f7fbc7f3b521b2b8c2b71afd083520e1ec, 0xa6ec96e98a056d3a640bcd2ad6899a98b1c9acd6b9f298010726f59089ed4742, 0x172912d04d3f8de83a62eadb249819629ae546babc7c9af14c88952bbfdf2bfc1, (-0x29eb15f02c96c979811f6989ae8c661ed446f63bad63c9a82d362a3419a01a), 0x0);
    (true, 0xdf1ef8ae53054d25ad75bcef4194bccae5873e4b2a2936d11c45f08609fb2759, 0x7a9acf3617b41746478406f530f8b9366bee88007ec23ae047373f7f707c7267, (-0x263f75ed220c8f790ba8d1a73ec5302c60d420a12a047af425b5e8af5c29b928), 0x8214ee195ba190ab9a0ff7806612787e73a8f2eb4158e4e0ad752bd8e5e0992, 0x72b0290edf36bc45747f4925410fdd5d035c9f0d402be0425984305b371296a5, (-0x1969558ba2f292249a342cdcdbd687dd4cc258f95349a0fc8f6d8a609b897dd2), 0x1);
    (true, 0x10c45871bc03c501bd6d1e87ef6017dc27612ca0c44273a80b0ac5c0d5d8dad03, 0x4d13aacea6cc7911f99171fe598fe8ab699ce5b9fcf12e21c0c85733ff88f840, 0x339403f598227facf4f7c66835dae7fd847e81236f050a9769b126e8ebbfeb6, 0x98865fce28913f24aaa7620e3c81362074295a3bb42d95d86244f8b1c55068b4, 0x15426fc61655205a233e3aa833749bb94791625e226f517210428236962d2d56c, (-0x2468aab5a3dc397b56c1e903e46f52f96c0637127e97f0a647f2b761fb1959bc), 0x3);
    (true, 0x679cce4aa24749b48484076c90c6fb7744061b12ca52662c077f447aaa919f80, 0x67974439c5c784809deadad0bd3958e938fd083340928755f9f26d68f5280b40, 0x87e440947d7bfe17434ea287e737707f73bd74e5362367b198a40b88122e2f1, 0x27c4965847befb76bcb6f87e53080355149e34eb77c9de6e6fa8d015c9636cfa, 0x76c1cd4e64cb66424c5d169d1640297558912d144a55c5db20c51290e8b0a697, (-0x17f17538f0f9ef98a501c1a541ac0a893130ab8759a21af0976fb6925f8d8fca), 0x2);
    (true, 0x10ab93410c3a6e871c6671bef2b55d9218c1a3b3f18c2015cff30cd385c854951, 0xd033cc906550d842d46307cbc50b17dfe451313c7c89da45327085d8d9cfb9ae, 0xb3315d94cf040f1fec33fbb6562477ddf78047c70e78903af07e77ce857260e8, 0xfa727eef9a2491191369e879ef96a05c681bc2596340b4241441f2e73a20d469, 0x1feb92dd4be6c74cb51fc58a803840adb69e12aaa8f15eb189468cc0eb4733782, (-0x1dc6e4799d654f8f8c8966dfa493e0562999d796c401a8aaea9d2dcb5645415), 0x0);
    (true, 0xc3c663396ce10f4aeedc2254099e19c16f960f7600e9b64fa1d5d04c0c24b70c, 0x50e71d45b466a23b116e2c6e25017a3a98a2c2d4ee0fa3213d6b23a4b8100d95, 0xbd578382d632134607544920f6c1c919696ed70647d8388ad21fca8d29c097f0, 0x11ac7451efd73cb5341252262031f287948ed649c44409587f9b127b19f640c47, 0x1755c7e5a052fb7b984192b36b017e8714d8c928e9d1fd9c9f6b741570af4783a, (-0xe655b0e5681c91fe282726e3ef6caf667e39fcc71c87877f3cf789886ed438d), 0x1);
    (true, 0x7b64881e770e6de82ad53d6105010eca3a9ff32bfd49888435b98ed0c69e0d0c, 0x1d744f04333cd4b773aa02f5612d7de4482463eb4b0ab3871322906d0f2c838d, (-0x13b7d21e5c53c626a4909aa7b2f68d42a164fb4a1a053605fd0d9f214b5f157b), 0x361194bb6c295bd48c0721aeee934d3bb2f57f9d0d1430671dee0410fe2d8b12, 0xa504b4b65a91838de38635e017b909b8a63174b03511b9f0edd9608e4f7efb4a, (-0x2657b87f820e49517a29ac843b50e156192cf5bafe95820a3e6ebaa52cab20ed), 0x3);
    (true, 0xa918a47dfed007bbbb9a339e9a0e69d1bd5b42c8f3713b989cc6d1941920a0b1, 0xd971e8d3b66682e5593a0b1ee144cdedc063b8dad3c9264ef726891d1c2f6d1d, (-0x1854b90fa76d7f28ae776a467803240f0456945f54789c96792bb688e33d45a2), (-0xd0837de752c4bcde95f7e0ded86bbed9e6b1bce5ac6d6adbad09165c86cf652), 0x4a4ed7137c9ea5853d28d20fde7c28bb325c39900eed54db594e43079e5724f4, (-0x16d2970b697e1f08a5d54b87f64d20ab6f00b05628a303699094798cfb27499c), 0x1);
    (true, 0x33b19f4a3009d72d3ce79719e8d4a56457cc9a6926f12ec4f5e28ee83df358b0, 0x454370217b61bb0298e4974abef8dc89dde226dddabd138261c41ba5c0929d6, (-0xe51115560bdbbba1279d0f94fb3f5b30e45f9696bf1284c394181efc5b539dc), (-0x22f0bf50e9b1799e1c9a7620fbcf6d6681affc3d35ca921caa5a3998c9e5feb0), 0x9aabc0a8d4f7706bf63feb4c88a433bf5e35f63ab91b0d3102a420809415faca, (-0x226b6d13304fbb59cf057845b19abc948f9795377dfd803261b1abd3723afb75), 0x2);
    (true, 0x37e2e69a0358f400c6163b10310b755fd7a801f20014a19bc596a941a2c8bca, 0x46da6dec5b696e0c6eb035ec05cb80e85188ff83b561d55dfe79756f2475e, 0x2cc02ab60b0125e6d36eefb727964bf239393be6e16c7f3988c10d4fbf1d9fa0, 0xc9943fc324ef321e1835e36844b4884106cb31af6311065a906fb82298e98c55, 0xb27422b6b70363fbf6879fe9c87637694e18e56127e827045760ce280c385870, (-0x1aceba5b7c7075f2dbad3466ad04444b793622f428093fda6fd643370f1f2add), 0x2);
    (true, 0x1abc6c939267956b6a746cb4dc5188457a2389ee5ac405696f22eb5220a8e2c4, 0x1ea65ead72199ae3775071b8f705b0d4563acd43b1ec08c442d51068aa05cbe, (-0x225171b8f08788063915a67536cc5c2b8a3a019c5190c04c8c9e60646a2044e8), (-0xca930a52ca00b5125e84c78b6d53df7575ffd80875c8e0db7890950f3f61fb9), 0x5f92b340cff5e8e11cd0a1815fe3146aadee4b03825ed0d2be011665e831ae0b, (-0x26ee3845315e590ac5fb7450504d21d5d772d084a2863b754143eabefd29f3b5), 0x2);
    (true, 0x98bdbea5ce19cbd362b30f1036773fe2c0e0633c942401ab7deebc7ddaddb5a1, 0x1b8f85b42feaf944e024c16b708cec910ad719f8821b29010898273799671984, (-0x192d95a9de5c4222f6f6130a6f9882f30c116aecdc44d9d48ab0a3ce0d9ded2), 0x74afa71306b530b60b76583b3680f034f229d2f2298f8c0ae9c93843568b284b, 0x106783046d179fc669c0af1ea32445ed1f13033e08c34a6514892e57472c6098c, (-0x223f0a99468d31bbde0fbc14b48574ae995fa2001b14b74f7574d746776d6c4f), 0x3);
    (true, 0x10383583fec2587af60fafdfd93bfc796f1f5267cfc893f727d9fc222c4d6abc, 0x74fdcf72ce3ace7b1a05aadc19cdd49eb9ca53c3891fb524663e493cda302be2, (-0x1acda2a13e8188a6978eddca4691eaa3990ce10b16808462ef4efbcf07df5918), (-0x8d84e4521ab6e93d7d6d13231dd915f4d136a024cf0404736c23422db06a659), 0xd51391f5141c2597c6ad0410d82df81d561221d287248ef00af3828763501fb, (-0x3801e4fb5754d6221e99a7be0335c699a64301f84231fbaa9f36bba5ffbb4b7), 0x0);
    (true, 0xd829fa6abc47242a95ca3f3c34931f61533af2133a4a894f1d4ce124043ebfc1, 0x6950f45984280ff66f2726c27813b004a1464820a1709ea8a47fcadca1a4b7b9, (-0x142c2d2ca9c7a585dc8d0399636e9ca6a53b0814556b50b8356a031be6b7db58), 0x1de6985086a43fd74b146cdff6649939dcfbb42e9e262e9de7e01a679bb0a120, 0x91db10d77065c1cff14c588339a8f3c67a9bf8caf560b61da05a1c875cc3a59d, (-0x13a17f9ffcd4a66b3b0a36072b7827dc569d03c064cec0b067ab1070d305f968), 0x1);
    (true, 0x138b593d8871f26662b3b5098f84fc90e30eaec4be3f6dce765fe92c49a5f5b8a, 0x6a87a4afa9e5b003a6bcbc6ccb3041535a1c7e0c22441db2fa6b864d4093a3fa, (-0x8de9871ed382109b4cf7f7f34914acd3ba6e962b6497b97cf89edbf3137a66c), 0x7a475b5a1346fccbff393829b1f4e1561f9c85e69e947072e9bbe5de93b593c1, 0x150d6b9d8e3e706ef3f2995e23dba63b794d0b42f821d707fc073683e3f8a9946, (-0x124839d8f1b2acf71f0db8af20b3c832290892c19839c209f2c2e4699051250), 0x0);
    (true, 0x3724fa05de8943a057ac8b62386f6c5a69659f87e2f609a57b3360862230b18f, 0x412931e4b063d2e5db8165ea93fc6ab61da9f768964d24aa6307310bb4b04da, 0x6112cc9315b41e1313fc1b3ee0ac9088b53d596d5dc04ab7a3fbfc55340cc2c7, 0x10f67f2ed1376a709b3d877e8e08e48a20a7628b89b1007355ce6ae4d49edbc55, 0xe6566db66b1af3af3d108f3a5d081a32ab7a937d93eaff563aa6a70524282663, (-0x188621eefb5c3a5a4105c54ee1b8e51c1becc548deba00e2037615ae055860f1), 0x1);
    (true, 0x129b2013ecba1898442c1a19d6094a096e06827a01a0f014230e6633de504b54d, 0x7c3301ab4e9e2610599d8d6d1fe7cf7a357d41732a7c957a71ba126fe937c66e, 0x400bacd8ee258266e8dd0724be558fcb827f05637f4ec2bac1a8070f78d41861, 0xfaab3b491e451ba5ab2805b3eacbccc6dbfd6cc1b8fb38255511d58ad64d9c54, 0x1886acb9ba39f5ebdd433b57089bccda212f32970a97ed3acf56422b957e0bc7d, (-0x6394362c03b2432f70e6c341ccab6dd515034af7bfecbdfdffe7b64bc9e51ad), 0x1);
    (true, 0x220275a559e335dca68a8cf8aa2b261730e7a7d6465b4afaf3d13449c24afed, 0xfb95ab1a448e3805c92b6a2adb04c9b0531bf13ec103a8ba5544793de9d8d, 0x1eb1c221f047c0ad46f2ce32d4a0d2de54a0e48166ce5656cd6e60d2641f8d04, 0x2844800d3017d463b7725f2d8e1588fe6740e923d934cff48752aa334e728458, 0x155d0e6e9f1e1e26226502a37d1b2cf4658ac69021c18ecee309b69db4a9e597, (-0x286b92e9b0d457332f81d528e44123fe6c4f3531d477448791b7d130855ca729), 0x3);
    (true, 0x28527a050602bf65d3c4f64eb267ad9fc3e15adb73600c293d0e075140128984, 0x45b54c6dcdb65a5f0792fff810aae4ea83dd2f64604bd942627c8064d2be0fd, 0x26d0074918e7763f51b3d66bbaae865424e40af3f2c3a8897fe57f0c0ed58b6f, 0x58ba3ee7370dbb3986a81260d2bb00774fe7f19b10a42c72395b2d1926d2f2d3, 0x7862431d10f01ff20ac3ba5f3a0a6af851291a89d7970623729896d23acffb4c, (-0xf805e7491146e58447da644e1d5013a748d94eec83e1344a9492c992e48bf33), 0x2);
    (true, 0x52f0b76cc56277a95078f527a6880c11475bc1daa3e6312424ed570b1e67ce, 0x118e4e6180759e9fb58dd656837edd749729abaef0c955c74a2df719f2eb827d, 0x94baefd9a4941096cad0064b9ca4174ca4401781214b0087802237af407e91b9, (-0x1a2df991ff4ea9d983eb714cf835a3a12e21aac621b95b48255184b64c209472), 0x6c8694ca771c15b23addb2d14ca4ec284132e6c043b033e337539e06e39754c2, (-0x2df4aff091b21f8a9984522c0166d2462417e77648748aa327e9da9a9d3d1d1), 0x1);
    (true, 0x4408eb02ffc189215630fd1f2b3328de09a2b335bbff294ccd8b2b869c659346, 0x74df0b83a9e43c7804bcf3c9e444e9406225921b2ccb0ec628387e24568e516f, 0x7329f2535c7d4779ca07d554b0d3864fc232f827ad2f4ee850342d17ef60515b, 0x4249de27accd5668623ef3ee130b91912ce62fd4d62be96044e712b61bbdcbdf, 0xfe2455acb72898fc5c1a6ec9170b21d3df3f62fa9deda67b48725c1058763c79, (-0x274ccdd300544ccd70480c20880490240c29fe0c7677031a5b5c18a9edf9dde5), 0x3);
    (true, 0x109b64d01526bfbd8528a58afa01659867ec1475fb92e6062b6db1416caa60f1, 0x4895282f072e77da36904e5bda1d2c36233ded52082ed65173ea1ba2bbf47be2, 0xb2f19f8cf2a81f4ca4dfd6e1a540154225f1bfdbbd30d6bbc4e27f7a725cc5, (-0x1d1c36bfbc022f0f404b21610f312cd667c6aa4a66a535cbe5bd4a3e82125082), 0x4c0a5af1a57411811ea501c7a8d20a2a81152c34aafa40bfa856d045d86775c0, (-0x9d125f9dad84c3b8af1e8d5e0b3ac693703d09392f0d3e92769c0df366ee2df), 0x1);
    (true, 0x1132e65419898de48366aff94feada0f75f95d405cfa43877a3c820f9c2074905, 0xad09ebc763ecbccb826d9a0e7bf82761ddcd73103f2939ac988595defe465c9b, (-0x581b2f96a7741500addfa9983b033284dafbffdbd7920056833fcc0308e72d9), 0xaa46152af8614d6f0800c0d009e871efd4d36e744bb78738441d3b5b44c9d0b, 0x9757498193120b651330acbaf09616baeef8669e249a78ebd859e6ba90089c49, (-0xb86dde75186f93f7023ae2fdc6bd9ae5b2104e075bd798c99131585cbc3e4f1), 0x1);
    (true, 0x14b755691e38d9a95c3b4997107e5dd0581a8f915ba404911ae9c001d62c9a5d2, 0xd26e0cfda51a63c92db15e843255d0dff3ee81065e5a69da1e28552f31d3984f, 0x42fe07ca66302f3ac5e0baf00e113b3b766499e1b53e6bdacf34385c8121aea8, 0xcd3a94e62b9add08ed056d540e4dc5c34118bb8a5c19d379fcb87b7e47f9d5d0, 0x18d8eb2543a11a669883391a6bd2f8759dbbb929d774dfe61f61ec204e61718dc, (-0xa22a4508ebaeb946d2f711a809c8523caf78562a983d5184600c02b31382c93), 0x0);
    (true, 0x90f5985372c2d037ff092c6e8c17e25ffc69b88196a845189c38683ea09955f2, 0x24f1281c041eba1fe482b6d332f5e288ffd2a9c376af17e149f7d821bfd0468a, 0x7f075a20bb40b092d0e1acf4518fb6e802d2b04e0566bf409b00ca10b10c609f, 0x10b10c1b1b3cab3264d2215e53d7f1aa80df62bf4c07909fb1742cb57d37d3048, 0x12619ff16778402871bbc9ac24d3969913b3548b478ebf9984d6b0f1bd37ef13d, (-0x1f50f337c122008f5a9741ba353432c19ddc36c425cbcf68aac60cc62c17d832), 0x2);
    (true, 0x33e0ebefc018bb49eb58372dd10912a38fc07f3190169a3a52acea6e1693d116, 0xe7828f29c3005f4ee9c87b457d927f0c00a905faa5cf53a289cbe5bdb4f7bf9, 0x655c370d3341b6416bfb632d251dbaf392ef6507b1892d8b1d8c5da81d19df8a, 0x942399f7212f478f53d9f78a3240c5669fb6cab501b039068a3f9705ee35e94c, 0x8837502b5dfb12cc884f946d6c19a415b651b2cbacb610b899ba89640588c166, (-0x59857130bbae1c52b0efcff661b0c2aacf700077dba1211ee862e6f2e06e52b), 0x0);
    (true, 0xcf29d76fe0b7a2acc290d4c5dc5de3f9a482200b894deba85bea07a7a57353e, 0x2df8605d951d33132a33061f785bfd01d4e35efad53909e82d965fd519e8dd, 0x235e998591396c7bda4ff422ceb27c01e043500da135255df11acac4f308ce43, 0xeaaf3daa4fbce4d10bd3f6a96b203b0d5b8d6cf98d949e1cc80cb608155855af, 0xf0927097fa051f5d05185185c1aa763cf4c9fc46cd76b340b31e5f1a02e5ad46, (-0xccd650f76974cccfaa9bc16bf3418e2be27c8e590e74e82e00ae156ffa5439f), 0x1);
    (true, 0x4ad123745a4fa7ac016087102d2c1431152342d79e059988296887b127720e9e, 0x6e9c5760e88c57ed113c65c0c3dc38c89398bca9fb26f99b69065625e03e3718, (-0x1ba707754fcd34eca06f2767bfca783aa3f528153d25177529a29a076b4bdbad), (-0xe139b510f187ca2d496936f93036e891ab9a008386a6c623b1ab3f582561965), 0x564c2f2cd735aafb221ce5cee32e54d2cd7cac369b98466c05ee6afb53d06996, (-0x16a96dfc15fa152383bfaad30c65432bae221f6916751f40eeb50c0a1f8684df), 0x2);
    (true, 0x1abdfdff3c068aa51aa23ad33c68a84a1b048505ba0a97d1a7532e21c7efa0cc, 0xd0de3491221660888c7060287ca904b37cd3f9ca9e76cd0a88696881107752c6, 0xdc3574fe9151041936414cd60a98b4e8dae9202f92f32455639679bf13f5db84, 0x1582d987a5976a887c721a38359c15df6dd9f33fd890f8e1a4ffb9cd394bc31e, 0x1b099a00a7ba59d192761ea994ebd7f761e5762baa7132be5a0937792861b7074, (-0x914becfd40355b961de283e8cc4b4f2e3b2b6c22a8b96c5a196b451d65fa88d), 0x1);
    (true, 0x356309626ef618af9206e1f3ed963228d0cf05c8478009c2a2e055cd5752277e, 0x45f40b4ddcee59af750ea48e90c7d084b01e5d924d3d10f9743def034162ac7e, (-0x7592fc605329bd6c92bb392d61f1dea51059c32237e31221beb7cddbe78475), 0x15ef1b3008de53709ca060f13a3880a0aa9dac6cb789e24f8473c7097094656a, 0x734cbda1b14ab1db830d0e35e6bad30b5719cb11dce4bb277e34d0d76b4b2e53, (-0x4117548d88dac05e247e3b814e5156de0f45c6db806ef71f3b943ee282d903), 0x0);
    (true, 0x920212381803b71036e49242aea07eb9b40257c91fbeab29ce3e9f03466e2f98, 0x4b1d2ec1ecd38521fa92e9b4b32bb770087d4369acec86bd8ac0fb7cd12bcca6, 0x9c7730967350b7a7274814ea6d0217c03563477e4772f9d4bbac55b74083d502, 0xd2e391a49e5c0fcf24acdeff460a0fc05be54509c536995b41b5ce979d2b1659, 0x128a5eb9ab30360ccf302ae6adb0e72b6f0150bef29170d02c56de920c5a09136, (-0x26f224a3e34b65fa705b8d33ccb674f0b1756660cb15fcd2bc0a3c7cc3270efa), 0x3);
    (true, 0x11b826ba56cb23932d74608d3e7568d69708745403ab02f426ec1d19d8b2ce6fc, 0xe8d70b9c853efa4159345515680a5d0580cdab1f4e6e4aa6fbe6505d3749e96f, (-0x15c9a1f2c362e009a253cceefd3d9f3e4384f2fa6d66c8b25bf19059285bc079), 0x49532da4a797aea2c85c3057d7625f98575a72953798f168eb0e2aa50e366636, 0xd6a72c74895628cfd8578b3dcf16c07d9177dbe467f1f7eff16b5f750ff45bc1, (-0xc842e43760bb8725d9791c7ff3129ebc25955fb034d13cf06c38b6cf3189c82), 0x1);
    (true, 0x8188a4b4e4262f4cc9a4d9d54cf3a0526ff96c4aad3a3c7091861e736dff57ce, 0xfd3aa5db44661c4935beadcb3f93616ea2159058ddc1eeeb2d7f1c565530a729, (-0x795e94623462b120882f3819333c3a11f4f36c7dbfc6d91ba3178a8411e32cd), 0x19f7f21697b3bf74dbc9f2d51889c1228ed4980dfccc8077ffdd6bf5a4c1288f, 0x914cd4fc346c36e334dd15693ca14dec843035eaf3128fd4cb4d82ccb69df24a, (-0x226322c2a9334c4208489541f1dd661ff45b8067a49e8800f12240280d4e2865), 0x3);
    (true, 0x20206ff1712841644d81d8d9587e568e001a3785e293b27c3361b9927e92215d, 0x446035d633ef36718e86c79f3fe95c8156090582abf5b00ccd81735b8f9b733, 0xb209b9e6099fa458d82c6c7798e93ed1b0021997cf6df3cda55615ae2a362670, 0xcbf56f0123281539c33de80e99507ff9330d073f1be0843bafa4474e181f2d9f, 0x78c0112d90b44addd58a3c002de4b065dc8ba4dcb0860fe8538154f57448b27d, (-0x2761743081ae121b69b808bcaf5a83ec66042f7ef4d1114a154c8d1c676c6c7b), 0x3);
    (true, 0x15c71c9da20cb1bb0ed45bd1e10917b98a4d0d201ec628c11b9a09a872e5751b3, 0xc74731b8e73294dd942f340bd986c366d4ec0d742c88b8b04e157b6a5e647110, (-0xfcd09758177addcd12c7c1f1130c2f5fc14c31b32779f06140e0ca665ace77c), 0x281337a046dc27921e307d2acd9e425be35a497cd8fcc396fd65c6f4d0a8acf7, 0xdf28798280f5995650857c0ff9dc9400491c2e58db37d751874c4542e34153b7, (-0x7b9b36832c8500f7ade4a772cbc41831a025500c408afa04ea0b88950e8da5f), 0x1);
    (true, 0x7fa2592c20b7bc9cc63b0f66b1ea7a090b22f7af04b0fda29fc6aee1214e5fd5, 0xa6ab98f8a571ac7c67a5e700612eb24045cbed88bc7c0029469218c8f1a452a5, 0x825fbb10a0a0464c668720264abb60e1436ef1a5851c41a5f6f591fa9d20a88f, 0x70b0c99dc531b656a3ba410744211b2b879bdf4ef9a31add16a35efe5aa505b1, 0x15f7641450253ab99609843677aa171ac59ed19f94fb294f66d545e5e6c70e482, (-0xdb60e44c4ef6e53cc1df84308f17a96b7a9d5c3e163bc8ec303be66c2879e7b), 0x1);
    (true, 0x2d16d6fe21d90ec370f30e98582e04ce14cfc5917b4d71aae3bba6c51c7f2e1, 0x37ab7edc1a54ea7fa2114b937634efb1877a6e6618978ca7c1af94c37def4ee, 0xd236633917829505fa6e784025720f95e186fef26490a3c4fb7e231806001c52, 0x10f3762e54320b1e7c8b727a65c2b8bb3d10b4a6b5643fcfba8c531042b6c454, 0x36d465a7aa66b38b055964a21163361213df1217a687845c35445045a4c26d1f, (-0x53d2d549a784900811c7ce83e71cc4b3ddeb22153c8a8b4b3c300321597ff80), 0x1);
    (true, 0x2fc2f9ac23e157cfd428472efc0689ac51007e283e888fa62429e23800721f29, 0x42fec2166a54109aca93ab6e3c917e89c05b68095e06f7b79f3f3c38adc08043, 0x1cfdd7061f511a5efab3a3211a03dfeccdd8f14fabd11665fc3a6e4dc86a20ca, 0x2a0c582dad55ee5c3a9545d6bf6b83321e79c0462477cc4466a7b3112ee40ab1, 0x862e7463b3e831db8a1d44869a5ebb2edbbcdc91b95bc80b89d80114190b2cf9, (-0xf63ffdc457593a62f3a50e895adec3338581dcf902dd10ce86fa5fdcc5212d), 0x0);
    (true, 0x1084aa89393cb0469f69b747cf0f7555029f79483ab422fa9ef9a43a963bf416e, 0xc3495fc9c32ec0ba00541e5e5f4ea9b1d96c5eeafc6dc0768e56c55dac3675ae, (-0x15359858462b7a55be929d39f4a1c70582caafc267a77b638d9a7e04b02d75d7), 0x2bed70f959099843bce9616080b92ca7466b80d98b52776c0e95db5d6961f309, 0xbd570a84a5ea32b4342a9baaa48f0872517df50add3427bb86be2ef9e41d5923, (-0x337981c65b1c79671814a0f1b0cbb92c06c74aadfbde5680e88277bdbad85a5), 0x0);
    (true, 0xde586b1b94fbfe0ecfa32c463b4f61bec056c553d6fef07b2048590840a9ef3, 0x15d58179e2f00d8892e9b55a312f5ad941f5d71abcb688b1b5c1b8669993b54, 0x28aaaa1995c50686d1ccd5469ec42046c7b55492919437cb7ef88e5dc042e41a, 0x5773d978fa01c146d437e11029227269b368a9b5ee28ef9c722cd36d679a9a45, 0x3874a91579d4e7bf0bc4fe14d503295078a395937f10bc40c103c22cfec35311, (-0x1cc3033e9bfce08fd0090724257ecd12469e4c638a3abc6b4704a49250291f7e), 0x2);
    (true, 0x59885c60d3725873ce1f3474dabe45d2a76e76fc16bca3cd96731c728c58d8e, 0x302d7d7ea054ef3037f230f0aaf6d3ffb0bedba1d687e8bf3668211b53bf90, 0x8f87f407f5ff948413e9d42d9c6e87ce6bb009ab92ba048c115c6f0127350a02, 0x8a4677b384a65807fa659d6de318e10ecec9ef78cfab8269c523bcd7140ae704, 0x34b48fd905cca3e6a4f75c96a0be06c644c80f51cf2494220b1cd9fe29828e65, (-0x265000c3c149cd7699ad9c77fa4b60945b56d61775b73d423b851d230397c3ce), 0x3);
    (true, 0xdddeb92ddb8e9e97e7594bb90bfda294ea28b6eaa005019ec290b81c7a29549, 0x4e2b7f2b2bb4008a54b934039b822df518aed9002cdebf65db96607b879e34df, (-0xc12afeefc78d907dfebf49d145292ae59637f7a6dee338c0bc5740787e870a3), (-0x145b2b4910cca9bd0844d9d2cd499fe353e760b3f7366e70a8cf49798b61c9ed), 0x5c1cf4f4b182992da9a9a4fa1d560819f83c8dce9e859b07320922c94cd5ca95, (-0xf48f8a54e136399fcc66def40a5b371207cfa4f0f740c8b3805af7911c81054), 0x1);
    (true, 0x155d29cbddcbeacc27b0a9d2446ed7c8fdef6899de797a8402e2f69b1334879d9, 0xd8ebdb6bdf69ad7d711391a104e7586fa21d36246f1581285763c99e48d40649, (-0x10fcf8155fe811c73a35ce7c2276e8039787e1db49476f4c81a3b2cceab1c8f4), 0xda538dbb5c4e79096b9e1e06e84020ac90849a73067ca5e9cd26793b467765b, 0xba9bc0272c93fe5a0afadc785bd7f139aa18d7ca0b31a839e156e4c6222221b8, (-0x17ec545e82cdd55dc3c7580e285cfabe43ea3698f43ea63fca0679cffcd8db43), 0x1);
    (true, 0x13e90cc288088f33a9dc92524ca42308969233980dde1c3cb76a05afacf970951, 0xa0389cba46de800faa7a37066cf484686eb92ca4064c73edfbcd459a3eb38f5f, 0xf40ff7e3eddde82cab3950cdf6ca342244a90ec47f5c491577df2f329ee4a009, 0x18a88f57ec32a04fffc527c3f66a8420405e0b23ce78f91ade301774d2829ac5c, 0x23237f05fc5c8e215022c13f8f6960cccb05a6b55c46a48a1fc710c8708b89e1f, (-0x1f28b17c75a6781a08796e3d671b527db7aebbf56118a3adcc779906cf5a4f4f), 0x2);
    (true, 0x1aa09a5fc95051d222b037bebda1894be58c5da319af06410712a8bb020b668d9, 0xe7198351919e1253ef30d46254009509ffec58e34d6ad3963f9f47a74036ac9e, 0xd6dde6f48e1882e5d7a17d08c7a5347269a6f5f3cc816bb468285b6ed010f3a9, 0x1a07aca62855a6af335a6795e7beead31910be20d644e11980e731754ee29cf6f, 0x28b5675d571582cbf928cba4daf4106417e9b74d5bd25f088414404ac52956810, (-0x18f39b1d5701989b9fea36198c8f06e33c9f805e830d0380f88e64675ada5025), 0x1);
    (true, 0xc3a14c8ba1f9f5273f9b2449a2cffb1b6f5cdb8a54f3209e3bbea6a7dd28d869, 0x27d5785fe937e09f20a000ff8b56b3117fab37780bc8f1637efe80f0b99cb3eb, 0x11eae917b38e5a42f042586f9e9b9a5186023f1106a2966e5cde23950fb44828, 0xc2d2f3ea0ae6d625c6f9ad58bb5e02a334e0c46a8cce87ad5445a94b0b3a9524, 0x1425f9a6d8edf3d8dbe01585b57b26d13720e60e9e62b7d6433d916867265cd6a, (-0x1013c1744e0bf5dfb352179b35fdc79c242d61f0b2407c0f084f9a0a289dca6a), 0x1);
    (true, 0x35335ee305ba5ba37457c2b4cc78244fd014a61ff7fe531c7652a2a775604437, 0x259af432d89cba4a64674d1c6c2bdb5cd6cf9df60d7f148f67d38aafac242e19, (-0x22531004ccb275f59af838c4710f735ba93102d0ee0217f8fb0bac5f9a5432a9), (-0x5c80b0abc7e9b1583c1cc349a3dd8bfd1f421ac6fc7c3d10491f500468bd47c), 0x1505e558e8da5e1b63bc48592a93483e321bf193b97dc716a7310950821daf84, (-0x26cb9bd030823c889f23f8efb6fea131c18207615a610220d569dbdb04939e68), 0x3);
    (true, 0xa9957b4ed5701393b917be751451887c43ac7378ea35cb20546b6720931c8965, 0xa91b56a52151297b90dfb5d8d3564c8e31b5d48763c51139543ab2b1bb6c97d5, 0x1cccb6b6e4d5563f4973d0d065e93dc9e28d775b44db2a312839c1975c93bd60, 0x64bec1f03816b191d1e14b0324e943982b11331801422441bafa604f1902cb15, 0xf55b7ecbc8d00b656df9ed0a7e5b17fb4b73f69781499e705567a2a18600725c, (-0x8cdd08ebb02f84b050ce5f89fa8ae197091c5e13f3ec29777ce4f2237a3d234), 0x1);
    (true, 0x1d9fc4c5d0681369312535c63f91f40e4123b21ef4a1e40284f8e49a24f87867, 0x4044e136208133f12a2121ce61fb2225d1a51ad14588617ae4e4fd0249e29b35, 0xc5f325a54c94d9f4a7b8a0bde6e5efbe3527417a0afa25aeedde002e9cbce33d, 0x1bb49e26086f7b9e7abe7be7c59d80fc99b6d379f4b3767c8b3565703aabf6f0, 0xead92d16ae5a2e60a7db430e23a7f7009beaa4da39315eb83239e63e94037ef5, (-0x1863f6d1cfa034a692b81cbe7a9619d5fca4dbe722ded4f3337607a9668f428f), 0x2);
    (true, 0xa63160057dcc2454fa7f27271cebaa7cc8b71a073cc5d88e9e92b2bdb490ac8c, 0xc6626da181d54f392a3a1930f3fd3d832fbe04082a59e5a2adbef0404a881567, 0xaa260d4340b132599e513d2ae57c0eeb66c559d06037fada194ab94df19e8b90, 0x9067619d2723c8ce56b741e7bf90adc2e82a45dbbd5dd29ac6d5f2f9cce2cf57, 0x1a91982d2ee8b1115460bf70b7f474a15638e52a3248778fab99a3f614f1a2242, (-0x27cada02c683b6055321e75a67102629231af6b1e5b3bf1abfc6f690d44ad18d), 0x3);
    (true, 0xd345960a9a81535d16527390ae929a29e1a15b713e22cab7efbab5106aadc91c, 0xdf7ea79457ffe0342f49088c33610a092b00a8fbd075a67135773e4fbe3031a3, (-0x23ace55b3fc3b52285aeda530229858989f554bcd1fbedc564d91eaeba8dac1), 0x13c2d43be337aee07e08a19a926d0aca9571a91cb116ee1003b2e5053b22111c, 0xa367726fe3e1cc6c4335cf00bb0829493150f67b0e0a43080afa256572de1cfc, (-0xb780034d3622aea6eeaddd62135a639e71679818b504646abb4851eb1c40ca0), 0x1);
    (true, 0x9b861dd8f84b0258a33102e099f457207e7cc94804259476e8f1574094e739f6, 0x5d1e6233775f66a7fa83a97bc8a195942caa21b03bdf28d8b812a7e66394f997, 0xbcfb08fc23b0c1b76569922df72523638da67e955d1deb98898832d426b8e959, 0xd94d1a01182daee1f35f39c66261e1c23905725697299458a055c585c9762138, 0x151ce6a31f25b76bb1d4af3bb25050ca88c839e5ef88061e80301f51ec1b2177a, (-0x7511e18f836a078d87f1745e3b451bfcb1e6a772572580cd11d2567212d6782), 0x0);
    (true, 0x20f61b159c065dcca2892e59d36f669803b15e4eb40a3c494eb6711c5cd6b53b, 0x2a8533c865b3737648bf743251047834a8887b22125ec391c2081c0b274cd95, (-0x1395fca3393ae6aa15456846cd6c2a3e06fdc2b599f060d19e4c31c9df0e8a27), 0x5429d1e1c627b0e4f2148d4053e4c10ffcad34f3a5670a911ffbfa95646cbd83, 0x7434897bbf11bd681fbe707b77f9b61c0234061c1302202cf272646aca6bbf5a, (-0x8f18ef33f686cc1505b8ad578adb84541a039d569f294804039fb099e25f3f8), 0x0);
    (true, 0x14eafd1b4d3b678636a3bf3aca768ca3a2af3c4fd982dbefcceba0fab8d447204, 0xc284311932761aba36c6fe0ac9cad57c9b49d1d5ec5fbb4e6854a16df6b622be, 0x45dc78d67edfc6d5df7e07924d5f3e6fa8cd8800e41629ab112f80f54cf9fc4c, 0xf8eeb3ecc860003cc53f8eb410308acbb1ad3c43c96a54e816420e9d0b29e8d8, 0x1b1edeb46bfcf3b8334c510aadc981872ac69f9f8de0d164d311e0d8cee8d53ed, (-0x10fcbbfc6c0f6800e755b1f8ff3d9884caf07c97d8ba39d26852e6f2e0a5b983), 0x2);
    (true, 0x12702e4317bd64f03b5dfe915ae92b7d2dc014581fbe60f229285dc442de562f, 0x395419c1de0389b055e58c0aedfddf70a8736ac76113619512584dbe3a08e07f, 0x52807a2554361a3c16f233993be5ab6e15ed98e070f10b77e7c7578df0c7f86d, 0x198418bcbd24971394eea406f271e9c3938f8eba37606cd0b784504615ae5b83, 0xa8b1e25a7da0336e1733e928ee9eb142e5962d3f1611df9b0ebde777a9f5263b, (-0x199dbec360827cf929909f32ed8b7cba12eeeb1aecdd0e1e0fd1a5fbda934276), 0x2);
    (true, 0x34c3f9574ed00a8871c792c2b4d05f83e2fa347c6eead511fc6edafbcf4e6079, 0xea5c252c9a3511206e028d0a33ea3b3a025ea7c295cfac32dbf454897be2493, 0x18630d1e33816c15f56f723d63539f919ca1058d06cc39d9af117a087eb9b14, 0x29ee0e828f45258bda55670f995314cbf0f28eb4b7fd72cec6cb6ace2828ae9, 0x3bf5d25730339a1c73e0df16366228c596a79c543aab449d6bf5b9e5ac19b49b, (-0x16341fbfed408d4b6449747615d2feaad02679244e03270e9aa99d397169fd5d), 0x1);
    (true, 0x3cf1876288ae2fd56378e9238490f91d0602af4c584f072a63bbc575a999cae6, 0x58c66f13d7111b1b115720404d642e8eeb45276ebd61752cf833a788e91d782, 0x29de2e7005e1c68432aa052c77f2d0655c9f27d9e849f172c3c9ebf4f2fc0108, 0xabeab0d598e3fd87ce51697af5932c9525314052ba791b5ec957439a4346f65a, 0xcdb72874c03b0500cb2f563e8e16d49891c42ba2df49b8af195709095dcb8950, (-0x247ea05e5cc2d0258a4678fb08f80544999aea036aa560d8286cc0ea46470d20), 0x2);
    (true, 0xd9e7fe737c52855b217a7e8446b84da99482ef8a006b9a31da5cc4208401ba0f, 0x52a051bd7121fe57ac3d72778beae42f6772d9190be2b981f92d275e96e6419e, (-0x90d01e2f3b6fc66f6ff73733b9a0d63935e47497874b36bd9904b0d449c898d), 0x1d18a57d8f120f18872a247b7b6db8fba22bb9ac8a83a00d953b36ffcada8427, 0xb0ac6bbe01f96c753d818e4e4bc9d4e2c9bcc5cbfcaf7b43ef00357da8a14111, (-0xbbc47194c257d6891c6bddd78af05397437ea06a028fd08854241b08b834c61), 0x1);
    (true, 0x2d86956a8118440f1735f9651ad1860aecee70f9877957e924474dcf92f0942d, 0x7e191b40cd519df29f956597953a42c2c72f3e5c4c5f870f4a6c69b2ef78b0ed, 0x7ab1e0a0df5eeb143b0164ff29d9c713d3ff558307ca8925771207c50b72d980, 0xb603bd2b4c8a35ccec14ae2e467794554621a89b6ea06e40aab3b0e2296e8f9, 0x10b30eac5a3aa88fe98f1e0b8e8dec6deaf1445493cd42ceea5359b60dbce455c, (-0x25e727e0a7cedaa523ef1049aed97d7d9453e142550ef4f4f46d0b1bd81ae41), 0x0);
    (true, 0x11e1ebe98450e86cfeff739bb37bb8085f8a0d8529a375e89aa736d9fada89d59, 0xe2c5d404733805b480fcf7f5b1d86f306723308dd1f210d666b235eab014984c, 0x35c8b16baed28158f27470196b0ed587114ba4b50c65edd21713d1dc5603de6f, 0x885635e362f134d115f384cc3ba603c51257f0a91fe5ee8fb84b4bb157fc2662, 0x16b96b965b7bedd41fdf19a8a63a677eb961c608760e1c16755e210a01b51ca46, (-0x2307046558aba34f8654b3b262ab2ba8d28b412bed581441da277fe4093f555), 0x0);
    (true, 0x734491a18dcaa9461959d3aca62974eea3b1c46e0eef8379c46651ff86a648e1, 0xd797705aa8df5aac8b58de6588fd3eee9659325cbcf51197171b4e1d82fbda1e, (-0x923d3e5c476c8bafa6b19c9be2b06efd43cb8cd9f4bfad074c41872a1c6f278), (-0x31778d010816b55c2d91785f16e08fc8168403996f44cdced2ae819545934a3), 0x19c431050470866a04596362f0c20695b2911e52b28130095f88306d63449b0a, (-0x1072b3c680fce2753724bbbde5ea4f9b1d18184507ebb99069f63fe720790799), 0x2);
    (true, 0x2b7329d98d736147d99f23ae54b000c1cf3a144b42df2a7f65f5b09466b32fc0, 0x5e9e83e54e9d46b546594e041fdef3f9ce795dd96decdbeb84c4fa5c3b46fbba, 0x48fe485ddd2376b3f4e001937d51749dd0c8df78354cae46c759c81897c09df, 0x15de09393aa151f841b373ca03d0525f9a4af71cd53c5556b92e45d78f063990, 0x840ee93fdaa08a408783c8ea4cd2974f2343d5ef90a42f7d10d92311bb43e4cb, (-0x215c6a67d216b9ff9de28a55ecb62c7831d6ac5c1fdb999d11719acf6abe1806), 0x3);
    (true, 0x5723d699b2252eda3e48e2cffb64814d1abf15f85d1b7a3b80e7a28728e54b79, 0xb8fff43b5a6b2d42dd1b4ef5f800b684dc43681f8602adb7dfc180cec010c7d7, 0x34959d6d558f8f94119f9b07bf3e3bba45eee67581db7b80bc0a3552e87f3046, 0x161b7a52cce8d907305b8c77bddf9269ecd27f0e920e6c1665aaf1f319a902e5, 0x1074e6cefc5ebae33e2bd78bc77cd2d025ad9d40d61cdb563f204e832b7e26ff0, (-0x368d254dcc21b34c88e26e3adce5e6495ffb2d641ff3b4012e8e15a2e9e701c), 0x1);
    (true, 0x72eadaddecfbe8482cca805ddb352c90b69de8ff08fa6267cdcda2fe1e83a56d, 0xd982374f0d04fb00ac9a1f52e68b40a971ac72101afa93915db7e0093daa2150, 0x52386a50fb017cdadbcae9605fdaa28ebe2cf9a1dad0b6e629b02bebd40e634d, 0x32dbae05a15589c99287fa2e57d5c9c4109aa68bd61bc8c5b4170e9a4410824b, 0x1547ca64826e63e4caee1f37844edc9f38eba4fded01f5a1425a7a5b97730d1ae, (-0x14cd67938f284befeb94fe05498de88df7185685eb5918b194648bc839593c8f), 0x2);
    (true, 0x5dde228efc1e548f3670f4f915143bfcb66c52839647be5d4f6a3104c77b6400, 0x9e1ae50a6a17e6f62149b7a7b80013bc212c556d0b9d89af6886bc4838b04b6e, 0x40b55ef1273f4436cff62e4adea53c133427154d5c41c75cc3f9620ceec2ec34, 0x27712553348a2cae00944a711778bb39305a6f5e83c586fe1b7ffd44cc896d1e, 0x107dbeecf763887518201a33dc9ce723d3c61a3b029c97b2428749b09b484c5ce, (-0x3756bfa4a2e314bd3b52b33d0071c174d5cba35e1da92970185655d9776d796), 0x0);
    (true, 0x37721c8891f4ab02f446e0de7a0fb4ee16accc408b0ed96fb01aa1c524c71422, 0x4823c8fd6f8df85b9313e4a886563c40a8e29f0e4d6e9c50acc59dcf64ebaa8, (-0x132910cae68c97392da98b17aee0a81250b05e281a5d7657d0934f6673e639de), (-0x6d993e3e0dbe49a0eed2f508955abe20b73c8a0293b6f1a3b1ab3c5fc45ebe3), 0xace67e37be68c019785282add545ba7d5d0ac154a1f6d4097601208c12eb49ac, (-0x25caca0793752570a520373a2c46215429faece8afcb158bf403548fdb5602b9), 0x3);
    (true, 0x9185c3fa8254182901618bac3ef674f53094b303411f19948a0774ac4491ee2, 0x6c664fcf6b2f598c8ab2cf363a40e2a71dd236fa88931e3600911b856fda08, (-0x1ab83f2783123ba3e0ec42460ba31aebb0314832c6fdf62e9afd9172114ffec5), 0x1b2889f0dc5c5ead14b951b58735a6f8101867f9eae44d2436a2081a035a77be, 0x33ce0b560da00311ea22545a19a7f47a525ddeadf6129e23e066ae7d6bf88013, (-0x84b9364e449946bd49aa6e48ad9b772384ce07cfc3deb86b23a790f09502742), 0x1);
    (true, 0xc1834d6a091c8ee09438ca2b7c19ec3c91539d14d7ad8f6370d5b49af0e05025, 0x80686241e5757694a535abc193efe88b7b3822ba5a011bb716adbbfed9eff69e, 0xae9a937a911032ea73ef36d5064d2cc5ad90a5c86d15b91d94251f60e1f0cce, 0x32d246f83b146b6ad4df95da526288feb1f811e5d2cbba5f97d0bf9b9fbebc73, 0xba1725bc8a2c9d96cabd812c6d41ef8690e3a092bde96c407e862227f8604321, (-0x219f4ffa7ce881ea5ad952acf133e354402770651c2304681ba6c86c37505508), 0x2);
    (true, 0x8e0f56f693f64f7744e06da3d00a326a413dacb5d2cf3acdabfc4cc5275cad0f, 0x35e8bbb510d9f8c8e036be3d2093f9b2308da98fa3728feb92d43a31ec5ec78d, 0xea5810e2d7ce976a8a15ae6019e1f92dd60efb3567766ba4affb87b1262e7dc, 0x630627b558a0cffc02d261ecd60b5a4b2c618b7ffa9be29fbb77b4a969ee037c, 0xbcfbc68e713a85942070ab241ade1877be37e53685715e071614b35e2a5b3fcc, (-0x19855581ea2f47e2d69bd4269e9700e7bc2b0e28f6b5d554e650368f2610f635), 0x2);
    (true, 0x1a28248386b0aa9360ae57cf4220db1195994fb15bd30b2f91c8a4c59407c72e, 0xbc09205b8fd8a8aed26b462c56b59257c028f71e6c283b3b80a4958a7af59af, (-0x1bb8e64b49aad32cdfe1b5d38181dcfe71bc5ce84beda73257554a349b5071b1), (-0x24c21f754f86affbc7f51e8324d193f9a6988bf6a7c531f80616ea53c8067dee), 0xee42e65f2a9c6e054916f71f960f3a20af40773190718a7dab66035fc1f7b91, (-0x1ebc2a8419019bce129ad1617c3b7fbc4cb63d43ec9b4fffbb1f5264c74d2f0d), 0x3);
    (true, 0x2dc2f232e738fa96aeadc133300ccd313df0866496828dc8b63244cda2c38fa2, 0x6118dc31be7f8477fd50548af0a0dbda463ddd8b19ff5e58851a7014413ac384, 0x1c5bd15b580cb8fd0dd6b7e2c8e5a44f3a3c62caf74f6c06c8c3697f289d928b, 0xb98d0e0ca6a567c12216913f5f6ed44d08d64779ff15ee77158e1f6cbf688be, 0x9d6f13e1c9e0c5afb9610f55a25b224cc5f6cfb41e07dcbcf0655717596944fd, (-0x177f4ac082713589ee434647b9331d7222b94a34a266c8edd5a6e95919159525), 0x2);
    (true, 0x36f3249a0b282d4a572aa56307c5bf3fbff0867974e8be094a4774c1008d2732, 0x7fd1e0db3e077950a686a7b286a6f18d726b566dc2ba35fbdbe55c0189d0ebd, 0x21d288c730a78d876a7e18df26b2e1de1e56465cfad692040833008a931bb3dc, 0x5283a256520b634c93b901c0eb9df9da7f8e20ca3a8f64518471bfddaa3b7933, 0x80088108db06ba3e31d15e06521582988f28ea10d9179e6373496128e8aac3a4, (-0x4af9c8ecca7702db5cc7bb9c68541e99e002a548d8bcf649b300c061b180daf), 0x1);
    (true, 0x13d398ba38d8b5c35f9a50efb879d63869a6689c455f93a1bdd3c4fc92275fb2, 0x3b0fa47f77431e3d5e7f42154ef21f07b5922395a1cda3b874b16562c7ab9dab, 0xd4c352ebee768d97506a918675c9a53c855790505594ed10fdbdcc2aa11b2e08, 0x2631ef15c0bb92a9cbcb24847c2586ff4878b18cc607e75decf9136eb07b04fd, 0xeff4485a4756a241c00c42f3f4ba63f16299c2deec3bf050121d05c909e41a95, (-0x1039d7e8542dcc0bdc006869e0a7e579742293cf81fd80efdfe6e82a42c23e35), 0x1);
    (true, 0x7e320446d1c533e26d55134c268b28133c9f47c0db894d055419ae1de19a0b14, 0x11ba0e71907d74e010454e7220fbce62a8c0b32293673a9e89fe981733f05d06, 0x26b4935330a61d0c62edeeb41d57f41ebdbab03793f18ef529baba1e10b778c, 0x8eb9af829cdaff1cfaa8400aeca62455c665b1dd53c672b89c3bc718a3f97d6b, 0x110fd2d71685fbea371fb252c93c3a9dc0aa664c48c919b50b623f753ab50f464, (-0x1ab3b0489f06f1feb3d73b9468f5e72bcb36b5953808d07f37c1c0b615564b8f), 0x2);
    (true, 0xcbb65825116edf636dbd226f520dec865ffdc060980bbc0672d64dcd2c2d6e55, 0x8e30481ae3aa57b28de01080bdbc890475f931c1240b316115cbd4437c34ae35, 0xc6a7e5a79e45485733ffdf347cb56e33f167b404d517d610392d36ea11fb6f71, 0x104696302dadecd15caba51694ee12c5c12aeb379cbca01b221e193150ee06ce6, 0x1b5c6bb01fe471f5608bde1a835ecaac817f366b7de0685a96cbdb0e3acb96336, (-0x12f4962af9713e9b4a98717d5276e76f35dab197b0aaca8ff62b4a45260cf796), 0x1);
    (true, 0x456a6fa9f525ab4e32bb1db56864a8dffe9ed8c30a5fa9d451b1a0ca4cb54b1c, 0x1bcdb2ec8ff2d15da6865d3d4436a55346446b77e8861f47155c18cb4ea044de, 0x28201f0bc258c6dcee3b724edf2546732a355e0df352b878c80c1d6a6b79e28a, 0x524398e3ac38bc2ff8fe30aa1fc172bb2e4b7424f4c8ead8f25b58447f73138e, 0x6e7e083cb2a1f571e12f65a7d55e815571af4391a398031cc7d477e3d01ece3f, (-0x279dff7f89b6a217bdd84a8a5d87e38b216a8ada5379ebdbe55e7d52ed082b29), 0x2);
    (true, 0x15869ae64f787eebb3dcb3c43b247304f235117bc7b71352812667ea5f715d3c2, 0x87965bf7b5efd397cb3e1ba4e471cc9b400cad6db08919a7fe29132f16f99469, (-0xe720cbdcc05426839c607406799ced6d1eba5ac3dbf4fbbe1debab01a5f2d03), 0x6114005d3215997651361ac9d54c13777955415e126dcec0e586845ff50fe85d, 0x13a4b554c71a0f0b91f6a52e8b477184b20f85c742711853a51453657262fa96d, (-0xe808055a5c90393eff1da1621b5143ad6d8e6e98875500789d59ee47399cdd), 0x0);
    (true, 0x4d2784b2f4a839b6da3ecb40478bb901aebe3369248aa68f087b6b07e34ffd26, 0xaf77c35a5d7992907443d5c5ef2bfc87ad9737bd227ebf479b7bce9f8426367, 0x34a739978b91de23a44f75fc8db4780966db4aad104fe3dd6446b293545af035, 0xac64e6d8fbdca8d60ad8b0e58144dbd2ee7e5e2d7436169e12cbf4b0c990aa0e, 0xc2ba7dfb4815bd96ee41d9771fdbb2dc11cba268c1fb0b1e6628e958a3a0a0d8, (-0x5a6d19195dadba8198dbc7e22243779b8c2c1922ab3edc06c3ab8831c5a5cf3), 0x0);
    (true, 0x73fdedab80d84850e804ad59b2755f839d749ea9fc58b6283d59614c20439777, 0x1226270703f0740b34ca9317614a78d5c323147c265dd27ac1af778d9fad8dd5, 0xa819c06b6709c9099dac929bf6b2cfaba54565f093717c574efcdbbf643bb051, 0x148bedb7bc2095603481c9e0cfd767fbb4f1c48b250613945e16f81cd94f4e980, 0x12ac0fc11e16470d1c27e0f1d3ae2da08d3a9d225fc42443985904bed161c32d2, (-0x187ce2cd99e93f0930bc7e7f164e437e8198d9f2f8ea315aba25a9ff6d6cb8ea), 0x2);
    (true, 0x8d77953886b2dfca6c950f744ee68d88e745d83535c39628ac901110427bce0c, 0xa913d656875049908504867943501e60cddafe84842d0cd4a77e0e80cb9f51c3, 0x144da84c6f318c5f79e55157fc9cc93459f98a16a134b51b8796b02621c52756, 0x359556d36361979e971543f896ed86e4f711b92569644b1b539ef930175ba019, 0xb175ab444dcb80a6c26535f5cac3326d5c95e2f6771a4c24e750cd22feb441d1, (-0x16d629578b3db83e38e565bf3cdb8ea27ab3364d2d1ba915a74bbd822800037f), 0x1);
    (true, 0xa103aea4aeb1e8448943467066d36a3714e42ef6b3bb54a5937cf9199cac7daa, 0x29811deac334c4f25e4d2ac1c752b75c3c34502c458c06d300ffdcf1680c29e7, 0x660ae1c84632ccf055d5f60cc3ffb41bffd01c658ba41e33713b6044f34220b0, 0x118230e83f5da15b586c04e4161612095208d2884d0bf977647a3083d23e5bcfe, 0x130efc26ba609a3a7fd575e31a38b7919d5c3c54434ae861f64c1af834d3fdffa, (-0x10fe779a8ab086a0a1096661e25898dd8ca567cf8794e0589bf0af94c5e03f1a), 0x1);
    (true, 0x818cf6a310f6ec6d02792bd65b9b555df7100564922076a1f2a62acf1f0cdb50, 0x1a506674e4f0f80df35c6e10ae21887bdae31ad59c5dd09a486d535f0d2b1488, 0x76dbdf182dfabb2d54949411638f0adff1df3dfa7634a2d0148bb410c100b24b, 0x106e80805fa1b956bfbad36b0fcbc84bc1b1f5adba7f1c5cd52b6274cb49dbf9a, 0x117d0a898373175c2a7ac5bb4ff36bb1e4f00e9cfbdf3829749b6d2a56cf55186, (-0x1c1bfcae5b144c3b475be579bcbce3115f5ed6c827fbadba760c1e5748018f52), 0x2);
    (true, 0xac8335fb8c929cdcc3bfadf3076f28b82ca9ab3a7475a2f32570f90880ddc7f, 0x288df5cb49b8b24c5d32f63e14aaa154f74fcdd84ffff1b5245c37caa3f59a, 0x4505fab67cfc68d16fa74a719bd07af5d1db4ea0bd0b640d3e574ef7d5bf64e1, 0xda8d2c9dde2860b69fcdb37c4dda652c3b23f71e20c62d7f5df0a047509e585d, 0xbede3b6ea30ebbcd060e5851d91e538472cb8e9da5e51922591d6ff3362ded6f, (-0x23a7e14b4c0ca4c318aa8be1bfb019525a70f5a23396684bf72488be6046f8b7), 0x3);
    (true, 0x10ce14b3ea123b526d6d05603b12bb12c5af7278c325509f29de48922f25b207, 0xbe5c0218325c1e1d32340fd2b786f89bd32a7c7ed6b4b424326442cc1d1a7c3, (-0x79cf558852b10e6cf6b2ddea4e0d0918295adf902ee5086b0a89634fc8b80bb), 0xd02b3bc718ccc8ab05d327322f374b95d5a8bb44d61bd6290c1d70e1d233c7c, 0x2613d01e3dd9b7840f1eb60c8981c7372c794a67e23be475f3a6cd6295246268, (-0x2761cc700a81c89b5308fa43eeeb07e932c8030c41a8696eb8701cc2a742397e), 0x3);
    (true, 0x144198b7acbd77ae241ee287e2d05926cd298634f8f9e824c77f36f231e01c79, 0x833f4a1b90239648235ad19be678c08f017c4de2949bbc35b4549c51d2c12f, 0x440f669e4929637272941f4101a96595d70fc9889719d9fa4f8d6d0810b3e1e4, 0xeb934f3e9dbd80a0446694e918b238d3a1c6cbbe5e4f089d06ce6b99c89ba225, 0xd4821f2072f74da529798b87990322da02c9550a96c090dc95d0ce55de176dc6, (-0x87a804a493da56bddab7c787ea2736fe4a887247cee41813d6b7788c7c68bad), 0x0);
    (true, 0xf5c7ddeedcf64a3a86094e7c6de615e3b76da67be00d3be9b93914a3bb77986e, 0x596adcddfcb1fcf642e1919f58e8569be82a4365dc6f44ae8b9a0051cd22481b, 0x6af636331bde5ef2dd10dd6fa989fe7406c7bb5e447286aab956ff76a9168c42, 0x125c0339285df663face51100d33a815526125c11bc12998aa149b6c9a4b07c9f, 0x18eac41937372ef82220efbab0bea2de944d4f3f0eaffb48bc3cf88aed890173d, (-0x14db122b83c5db9a8e1392ff5d62296c28170979dfb93ebd7c31c7eb6d29ea3e), 0x2);
    (true, 0x4f1b93f9bd8ef310b1554fda805257a03d45296772ffaae7fcac20ccc3342708, 0xf9f2115bdc83cdfafd5de02573c28e986a755e4e648f1e838c03d1c8aa0c1764, (-0x16f69929fd0a13ad5588da1bc62455201d25abc6264c9e7a1c85a81255ab7df5), (-0x3611beac424d125153955fc7ddb7f237fd309b858c834e2223edf4139b979f5), 0x69d9b7698505962797d1513219abcbb8decbe3d1817d51aaa66878f8a67bc32, (-0x8c6ae026b80476806fed83d378ed9a14ce1462f06b8dd0504b11e425d3bf3c9), 0x1);
    (true, 0x49e2d07d689b9374a20d9b098720b0e38ea6362a59dfde9caed2ffec48400424, 0x158d8f581f67d75cd4ca80776f25da502b18d2c96996d02a49e95782a5439fcb, 0xd91b052fd20df336ae9c73e6491c7e56b0e663703d46dac533d8349b8b455176, 0xe5d01e9869e92fdf68dcda0a460ee2ba78c661a8fbe3cbcadc6e09080596cdc5, 0xd247697750e0a173a6456d2148e892d050ef4fee1141f88605dda74015d45cf7, (-0x10763edc5d315eba70d468d5533cb7be32fa8f58871ad70b55de166ab2f6c447), 0x1);
    (true, 0x11174b2a84c0d3bf545a5fc2acfcb89113330d79dd12b7d285be01b75cdddaffd, 0xf7c8ca87a88b3675e8e461208b8035d67f05c09706e92889a3cdf6f6f4e54fc1, 0x152f085dadb4c1a04b884acae8ba23663280bbbd0282eddb0dc0e4fafeb8a8ff, 0x5c5ba9fb72953a4737e43e5e27adb67cc27ec7c042b8da9f8b2cbec4b8f7e34d, 0x10777cea43621f8b8d625d4eb72279c142ffe647e5707e9c2c752192abacd0953, (-0x2524e57b372f736b033e314f6ca92529371f080fc3853b5a443c5425bfec258a), 0x3);
    (true, 0x759cd8f79084b66ea5669d6f3391b9c038b21183d197da9ead02730060bbac6b, 0x1f2ba4815784d3e0ce88b38b80029b21ba505115b8ed84d8f0d43d772b1b826f, 0xc0b3d09fe17feaecc2884d57cca11f36038967e79fa8d0cd09df9125295bb77d, 0x124c4949f5d0f3785baaaa9f984fbe04cd1227798de1da6ac3fdc515a48c65bde, 0x1119a4334d8f402cc5ce5eea86fd3b980674f988d105096da62c96ff26f203a66, (-0x286c4108ef4158979663b8c7049fa64ca0c59bf02013bdaa3b76ee40112bb4ca), 0x3);
    (true, 0xb4f4cd75680d14dfd7eea6130b23b875583088c1fb8015f822f715fb0a927060, 0x22b2e259be522145eae5fb00db3255b120cd03d322d9a0c52778016a9d0f5f3b, 0xa6ae1340d535d9d8c3bea1a3b8917931b1d094319507c858f5b5348e8b817f13, 0x192318a0726bb82d87b89fb2f09908a913d498408e823b25e7c19bc141a9bfc64, 0x191747196374cc7a566065f924c0e792d810299a98bf9182841f334642b9fe8ae, (-0x24c3df8518323e02157bb51cf0f73f341d4c0ccb1500c7bdd47f68208c9d219f), 0x2);
    (true, 0x824b1c910dce4b91acf213ebe51fb44c7ed6e8b438a02d482337523921e2a13b, 0x16fd1130ef4164bdb79429dd1df7eeb542bf13b0eecdef42db002c8aed471f13, 0x54a55a2f5fd6b8bdf8b54733e0b9783a6734076a32a33b3b98a3462f8d212145, 0x12924a58881e47f31c6e60b9a94d1ba1ab3d15deaccf0911245e9b3e747272dfe, 0x1224f4056d94bf3c086f3e837db825425e7ef3197af4c570004b0e77b5616e65c, (-0x238f895b39e3f5c24c673951ecb133c110434c7cf76b6590cc164ad23a6dde82), 0x3);
    (true, 0xcdd8f9b3a6f4293fcf0a871d69d329db877f302cbc8f5dc68bbcba2726580ca1, 0x848728e543466e26429aa906837425932a28d74c0d1fec8ee71144ffb38d7f32, 0x432a2fc56d460d52387f8cfb1d3c5418588b9440c8ed6928b349070404ebefac, 0x83909fe93fc562f7d5a9c5453d5e7e0a950835ad2d80d5726c795f4009fbe8b1, 0x12c8b02c00005fa5953373bdfb8be5e60c87b94170a74ad9d9755b08fb8a2bd00, (-0x90162979408b8b0c7a806a36edbb598701a171d9e5747602c742206b798b3c2), 0x0);
    (true, 0x4d99189cd71b9808d72e267d388dcced5a95ced8f7f670da0139801081e5391e, 0x8a9b313c66be4a3379b1bf946bc4bd9890ef2960e7bdb172ec86eff087195aa, (-0x604b988788c8122ab0b09ed4e7a278848cb2a90573964cb35095e0556f8e7e9), 0x15d12dbec1b866cd683153ed096ce27db9ec7e1bf573abdab177259cb553a759, 0xb32d42794d7c2509f864dc150559f66c0cf8f3baf9b1af6fd8a40d068a950e38, (-0x1cc6d42c21c5d4ef5d0cd265624970f5bddb434479c575fd597509d2545fac3b), 0x2);
    (true, 0x180ac405514403b6fd72930d4cc7e42efb50c0e31abddf8228d96f6cb30b2b5e, 0x308b2767b840b649078f93404d884fb52598eef9d56e2a4316b425d58a4a8f2, 0xc9910843eed21fa3c4517a560872d71b0c90b49f8fe13637bed074bdc695112f, 0xbb38597e6210ffe726ff92e7def8b47534e88135139c215e0b757cb21bc6d288, 0x6379571fa100db618a8f7915ee206c1306f485d571a47bb3f254b09cb3a9f53e, (-0x6cc10ced92c5bfb738b79472ee8f4479b2ccab3a0603ac5a38ad4e2e8322a80), 0x1);
    (true, 0x12fd6015f89a7cb9511534aa20fd749bf324aa3d32df9368575b95717cde5274, 0x450f94c1a88ddcaaf8408a701c4ebc791060305015bd6e911fa399966f771635, (-0xc9acd391b18dc22f4683cb4698c6963c02c17470268c5677c9bfe0c37b56cb2), (-0xfee94386bf05bbad02f2741c8a7fa2696e006b8e191399ff38c63c1d1048170), 0x21516159b58440a9cf782729dd773dff177baadd788580aebaf26980cbecb491, (-0x1cf4edecfb044ddac52044bad8f674044cd8569c1d1b55f62acab8ab1122f7a7), 0x2);
    (true, 0x55ab495debdfa820090e56b1c369719acbe0cc5eb2820d7cf3df9b3c74a0962a, 0xb66792054e5cd096eee381621deb904d499a12505d48c20d9325714df2443e2, 0x3dfdcfeed0008059b97b594fec485f19f2b727308cc5e97245985bc4403b1106, 0xaeab92af354cae44ca4b56a15ebc51086ee4b02b62061094d032f00c05269e4a, 0xd6edf77b1d91b362244242d84bc0c9ad4229562f301a7f30a525c191ef257901, (-0x1ec867beb75263ecafbcd08fd24b11b52c0a6289330c1a481ad15bf591627399), 0x2);
    (true, 0xb53407c770a1ccb2b29776e73ddb3dacc9c759c7280f8304dd0cbc2a6086f47f, 0x60a98f98d5714752f3bca20870013bbc098f6eaced3ed2c7526805728192d45a, (-0x221fa55ed713530e3715c157c47e83856df7e08359eed612d882edc2846583), 0x41f740b14d1b4e4ca5ea31407f9da9557f110b4ddcedb2ac7030ed67c5de38bf, 0x9dc8f6dc4254d85acdec0b1f990fba873c364b8d118f888b8df7371e04508a05, (-0x18899407fca2bdbdf8e93c1da0af526c11cead2ee03c467d7a3dac0438dbe3cb), 0x2);
    (true, 0x122506e963b8b3bf5d4867855f80100c2d13bf7738a8398fb1546c8306fe6b3c0, 0xac8243979f2f5fe0500dfefff77d0701f84f1dd4294c51aee58384b1779710df, 0x6b195c3fee63dc3609d1ca44c185574082abe42ea6ad97f7ecd9c5a214c8707, 0x6da18f460f3a049eab451acb327e7fafadfddcfe88d8b0713bcaee182aafd81e, 0x110b4013cb2c7b74cef7e0863dfecbc931864c9afb7a7f5c29afb3a5880159483, (-0x1f25c7ae329a99384c3dc7d581d4c3e3bd7d8de6105c465220d9a42bc2f7cac8), 0x3);
    (true, 0x1843b225466fb3c95b876d75df776e04f98cbd653530ddd127c0081a4b4929b5, 0xcc27853fd0120d58d64769a1ba7d683eabb35a1f85abb1b9dd2e35e3cbdba4e, 0x7d8eb2b7d159dded507eebb47cc57b0934c4e62b107841ea3bf762c687df675, 0x10b899ccb4ad7ea5353915bb9a6fc4f3e2de35232a060e0ac2065d34f31131b3, 0x2b6cd8175772386134fb9cabf31ab7b4fe6310770b334b153878d538e755d650, (-0x2943c9e53997eff3cdda112950e72e40cbbec1a43827cdd0caf3352c7d1b0b), 0x0);
    (true, 0x22814e3381ed1369cb35e1e57dd1d6baf53c3bad2a27c0907dc47be54710cd3c, 0x82474f0fb5c42147ca0432761df0eddab135fd710a6d1c94b0d1d244d5e258d, 0xd60a667b7657b08bcdd5a75716689476e1de5b7d4987a5519ab300f5e49db15, 0x1e429d14874b5d2a88a6b05b96cf95457989c92ad86b56a22bc0ba5a9a258991, 0x3de2b015e9ce3d0b9bfe36bdd19fe68cde04551669761b2872232e2af551975d, (-0x1fc72ccefb915aa510f79c3d62e129133b5b1e45731389cf0c76344bf8073530), 0x3);
    (true, 0x8c115251448112b60f2402e3ff8d31d3a578beefbc6963931a1e57927a2ef06, 0xe4e75365a58bfa9b1f032441e060f43452177ea8088435a8f7f087b9743d8f32, 0xc840f0af06f8bc7111c3730dac7ffebc4aab85e2467d1bedbbcc0fb03070da70, (-0x1968c5a0d3418d22ed7e856f58263bbe35e7dfd6d2c5eb1891694f617a2a71af), 0x1c3251c024bbe9d3975e3ea9fcd923f4356daeeadc5463b29cdba99a1b76a45d6, (-0xed3465412c2a659a08188333dd869ea9430a1de5e95d4dcfb33a626af12019c), 0x1);
    (true, 0x8917a2f19a9cc4d7e9e86a4128210e9e7db08d9067a830faed4f89c840ce350b, 0xb240a4fedc86018bdb9dea1386ca850c8cd8e66a914bb4fe04de02f74a797c3f, 0x6841b8198c209c945f773c0ec1e8e7ecfa1c54903cd743b93f31afb4ac1d0a0f, 0x714377f3606f4d6c2d4240b57096c71f1f097a268abd7a82fb2597a1e2cad3dc, 0x142d76addf4d6a81552a4ba2c945cd7c75ed4a12e1ee152505a8bc1d7c4bebf25, (-0x16245e67d8dfb6790deef02b73dd78c343f38dd6aeceaeb799a30ec63c01b8e2), 0x2);
    (true, 0x1657f4ea683e59cbadb58fd3b3e0dc6149da628e3a9c0fa858fd5dd9822a9e93, 0x2511728c0f24111cac41bc03b11a21cbacb5a3fbca7072f2c8d6bb307a9c3dc4, 0xd37c6d7addf0cbc80486df036dfd39a7c00ff8a358741acdbea61170ebd6d751, 0x127cd0a45d3dfd341752a72f985aa0f35c05edd49585468da4dee520d7541208, 0xc071154454b95778f05c24c8a76c9c6e6dd7c51db2cb34208311edaf78153722, (-0x14d56480298533e3812e78aecd1e2031da22d78f52a8998e1cd2aac24201fadd), 0x2);
    (true, 0x144c761a54595d0250570ef25e6705a03d7f857b643705fa5fc2b67ce85ff588, 0x1b147181799de91e393030b39c9415b209217398eaf18b388fb6047869a5085, (-0x26fe22c4eef637558212149503f6ba444aab8b7679decd6bb6d27c662e600e9), 0x3a7e7d5bb9abe1089819f110a88f3d6b4d5690e7da28718f9192a8c1aa780f7a, 0x46cae0d3ade94b6e8db401c41448bc392910dbb362d501f5fae44e77d29da867, (-0x279d8802dcfff6b98618d6b960b721467ebb8d03716489cd0dfe3ed732c4c881), 0x3);
    (true, 0x888640071cf582c971acdc5e646a84603f7d8eb3c56cfbf7bdad290fa92afce6, 0xbff7b8698ab8a211847e0e1047bee3be371287e55821e337ff04eb22b397d4d3, 0x1ebc11341993034dff781aba02870a6a517d3a0fee58341e1e9f18faf6ff9d21, 0x325a9351b5383dd7bc6e21cd2eaedab44ffe78b35de44bbb0dd47c6e47c4153b, 0xd8196d41f56f6393a1141f99f950403dbe0fabb5896dd1765410e92957cae977, (-0x25996a0999c46dc65215cd4a91ab956b6c7e5361e41de7d4188de608519ee18e), 0x3);
    (false, 0x5676fe81080e52b3e1c0ab097a602c13f7e36a21d8e1562f196fb844f548ac, 0x73f0fb3b517eaeb37912326c57deb2b759ffcf9295ef99a9f1ea1508d96a42, (-0xc7b92cfebb918e33331a5d2a9a9875c5693eade41a54565a3877b1532e3f608), (-0x15705d0ab82b03daca2ec01b669ee296c2db11577443f859ddef20bfcd784f6a), 0x71622b708ce86789605c72546e5e3b0f0950104ecf60785233115c330fe35e4, 0x0, 0x0);
    (false, 0xdcecbc4a377c51295a7a3ed3b3f5bec719a6db6c8f5fdba0662ef7dd34c65492, 0x3ca8e1e3a1750a2c9dc622e13c9a33ae80abfb23c1484d515a23bf16af252767, 0x1f1b94c39c25db9c02b85f1ecfd38bc18579e615832c909895fa4046529dc0d0, 0xb3f2a0b69a6edc33ca32eb9d011fcb5a9aba14ccfa6acfda2c69687c952f926b, 0x12ec76845dacc0dbc9f3c856314b118f1f3cf39f1c15321e3ed9c60e914065702, 0x0, 0x0);
    (false, 0x6d8b6e862f5e5962e4ede139a99035553ed696926768f52a22e557785d71864b, 0x1bcdbfdd99109c1f11bf15280ca21e52e8855fc01e0760de655e533ee7a47c6f, 0xceecf78719e6bae75fb0b551cebdbc03d4a60476d5013b9d46daef0dadecbe36, 0x1162c02480df9091427a10932f95f268f4d0c38c80b6999c638ffe512a99e27a4, 0x105e4d8a9182de869bbae2d1c57b68e0d7dcdae30e01b10136ed5fa9750e3674f, 0x0, 0x0);
    (false, 0x2149ab2c18e872d7942c39f400fe1ec926cb1ad9f57dfc65bc535c08083ecf30, 0xecb6a3a327c84817ef0a2cbb8b7e3761042ce16855b169f2c1bca8fc7f5f655, 0x18b49fd0cf4c9f83e138bf1e93fbb4bebcd36d82609b17b42b07e507c9caab, 0x9f2d20f3f47819310305ca6d7c61b3cb22ab2878116cfd7f7905ae3dbc0e8d3, 0x3dd04d6707c615ed2dd13cd106538c100e5c7e932d52cf7bac9b1a8ade0263e7, 0x0, 0x0);
    (false, 0x97a94f47bdab193abfefac22de1fbc303bac475cb30b2ccbaed2554cd66d518b, 0xc5b9a5e69c3703249be6bf76656cbf2aadccf1a8492f140d367ad0069fe64e0b, 0xd7c0b3b877300c4894a1002ca4cf803542b31cb613468105ddc361828862eccb, 0x8bad16c464768e267e1188d3d16dd30741baaa5f219a2434176bbfddb8de83da, 0x1d9b9a4b75a7e7b13727c52522c015e4be92f6558d2ff89ff02af67f80d85ab55, 0x0, 0x0);
    (false, 0x3f7fbfda1d63addb638b1f3bd1900118271eabde2812c9151657a790c6945454, 0x18ecb015cb4d479486ef6949475942353bbf771fff292cc705ca4e2c1ef2550e, 0xd9417f05511ca2d294e1b0b80050f9e67e7b313611caba94b105f88de22c9130, 0xbc9ee29df132702876c27758e00b286304817336f84d89cd3b9955173b04240e, 0xc050f9046ec1aa4380406f347a97b71483a4d508459a33eab9acb531ad9ffdb5, 0x0, 0x0);
    (false, 0x342007ea7b4580921246bbe403f49e3909b59360f86ba0fe23e56e25c9396b6a, 0x17120eabb50cc25d7ae0c8819121bcef637b4d30645ac3b82fe5d250f9cf5bd9, 0xcc43619f7f0532fa8cf26b2fe92b09d9cedc057615815c9c902908ae6d3b6bdb, 0x9a92f0f82c5e180c84867023403c6e50cccc67e0350e45905aa4b56e72d9ae70, 0xb3ccc3f8345f5313782bc97dc3af52d246e776f7a8226b4062adf2dc57bb2b08, 0x0, 0x0);
    (false, 0x15fc363deae8a8a4545f1abf4583afa5a16e8051e722df8f9e0a8ed2c6e1f208, 0x169a01e92852dfe63d5a48b29974f9a9fd7abaa27e8af52e053b1d7465f2ff4b, 0x23667e0715ce7360ba401d251543d8ad6dde937831e2dfeb6dc2a252f0aa5aa8, 0x27f378af4a2d4660d96493c3f483ffd0881f221a2bf18365a058e059029a26, 0x51992c28a7a40578e7b580dbf2673a5b8dd6e649a41d9553e237c669499d9269, 0x0, 0x0);
    (false, 0x171d96dd9349a21a4a30a37d985608e4006e516014073e69a931a3d48e45f9a9, 0x36f7a92016033dc7c9b2e05d19003f11c0c295fb662c52b799afcad24ee218e2, 0xd6c194586c93c73e3e7bbad5fd3684729f0059cd67bddc266b8ee3f27c5c380c, 0x15bcb596448829e0f6fbded85a6fa8371fc3542ac5f8ae1e9e94ddc0f0a7e1a9, 0xe63851807d9185609c49cd515b4117f56ee93165b37ea398e176daef81c4038d, 0x0, 0x0);
    (false, 0x1ec25368edb9a8e737ad94e6ba978da1b530b8a104659c4a1809f1d8941135e9, 0xae2d85d54d3be3817c18de80e83359e83e6be11184a6e388d2cbaa817cec12f, 0xf8f2a880f8cc904557f0f656e82cbb6892cc5f3ace4298308edb5e59a37025c, 0x24bf95249be21a5e9d1ca54266138ad1659152469ab005ceca29dcf0b8ffa5b1, 0x355b611c2b425346bc6af91f944b79a2f1cc083aa95336cbb2fce08407a05cd5, 0x0, 0x0);
    (false, 0x33481c6d2c9491a40c5c511873845c1f65d6e59d36fd5f473e8b6a2100713afa, 0x4b49592815e7b3f23955ca905cf238be92e80ea9e022db874764d23640e6b1b, (-0x82a46e9f92e94e3cdc6f647523896d75d8c38bd680fe4f7987de4bc0e3fc63), 0x20a69905e93694bfd646e27a2cb582f789cfd5f0dc5a7cc68121631a011e5547, 0x94bd37ceffef90b2eb4572291c6cce5488da562ba6ca1b7e072494128ea84be5, 0x0, 0x0);
    (false, 0x23cf09b98f8e03acfbfe3041cb93a3cff99a0e4c7903fccf337dce23b56a706c, 0x1cc62fc977083e3c82d01b08c0ae6d8d9bd228117725221b545e7083ffc0ad37, 0x502a03e78d65a4e20750a3b77bdfa9bbbaf7ce51042280454f9b96da37c8911c, 0x26346862931fd167a9eb18eee640dbba033f83e23f7cf63e043d98b8d814b840, 0x6e62a37cf223b513c41429f7a142c1ebb9a308d4fe5df6b66af8b1e32246c551, 0x0, 0x0);
    (false, 0xf5012d0c5de33f6731c1127db366503bb674c27ad58a0dc8acc584b256597164, 0x6daad06dc7cc43735e728b106a44f33ab3c4d7200e45589879fdfc9bb96e5fe0, 0x10b4128b2c99ef5dd8cd4735e847b1b865edb872248e18b4110efe470618f59c, 0x5e2c2e29f442275f8925500e051a7c6c31b84a2975ec24485e35a5dd1d23a1b0, 0xfe9b934b584b9f85fa5576bbbfe3f0f7c94ea52630d9bfeb24af3443f91a3170, 0x0, 0x0);
    (false, 0xef3b9bc5f7bfd44472704addd16d97256c477b772c6a42800a0edc30b9222567, 0xad333a4d32b531700ae38d455cb85f7eb7d6083a7101bf7761c9a5155040d451, 0x191acf6b52c4cb7aaa77dbaab2f4b790f538ddcd442b893c52ace062597df3b6, 0x7c79dad01ab4131649c8d002abc84e5177053892fcbcbf7fe9be6ed1e91595b6, 0x10a24ebd23170508de9cfc53fb7c64283b3d78071567cbfc3a28a09f9edd5b444, 0x0, 0x0);
    (false, 0x3983d7b70afdd30b3719a168c452d0f6f4b96410f5930a65b2cb868c3ad63cfd, 0x1dbabce8a67bc692e29f243a9813b98738a6710a185575715cbfcf074607c642, 0x6551bc8c71f7b77eaef50e9b405fe442d5e1a9db0ad5040794a89c1bf0526d37, 0x7655dc642800930f6bdbec518f4233d1191bf33d137eb3050996e54293393994, 0x98fe36cdd9083c1c9e49b3c09a75f7a071f0aa049d40356ea3481e103a2eb383, 0x0, 0x0);
    (false, 0x4e3f0080d9922700480ea30f42b22991575fe6d77b8c91e735482a010717f61f, 0x924bc5dcf60cc8cd50819e309bb68c35fb9be582fcff002424c0222c0daf265, (-0xe5119db3016b52bf8db3e99426d1dbbea8be2f50b50a7b7ba32a6ecc7f88339), 0x239a7676ca9ce20c7badd6114fc3a5fda1d5f4f4023b8338fab398979a7dfc9d, 0xb5842ff86fd7b98f31b7c85ed52d4075e6e2d150cf11dd3fbb55d9cf8d70a4a4, 0x0, 0x0);
    (false, 0x13c74169195db4b8ee18e82241b461d011f03a2cada482388691d44e45ca9f451, 0x9cd855ed44ca474e2cde7584768aaa96b220504e6e832996df273638e41b9adb, 0x2378e2208a287b868ee9a4909b97ec5bc9e9bfe9e35271cdee3f1eb9fc004e95, 0xba3397f49647fcd8a31dde53fcc51e9816f164808581b339457b07f2f3d5a818, 0x170d4a122f44fb462f0dcc326e0dfab225380846ff771d4c43a59d828674703e3, 0x0, 0x0);
    (false, 0xac60d059c136c182ec28ca4f6a902f0eb8a48cc2e9c5e09503fff1ba69cd43fa, 0x3a21795fc17e682fd86ad1e4e26e11957d26b25d1b9b612e7937600d87873dbd, (-0x10a8622ac5ecdebb11dc1761891a6b4db72673a3f078d101163cbb5f4866bfb1), 0x30b6393c96532ea43c3907e55e61a1ec4b1289660095334b1eef469df28ee2f8, 0xa1181d2f594c50edd3ffea85bc5c9af68618497a146edcd7da2a104fff20f693, 0x0, 0x0);
    (false, 0x875402250627dcc7be9ea0a1d170660f6ac596896a8545a817d4da227480955, 0x13d4bffd814aab482d311ece7cc087fd96bab519b46c085c4d34a45966d798f, 0x4b4f1e0f96e3078872387b19b7e5947dcba5780b18ed2ec107c6c114e521daa, 0x1392fd333a41a533f067d89334063639f50def9eb4eee69512510268d6177eac, 0x18e89325de5f288e2d4b2569ef0d800595e5ad47582fb48359c7097f8d61d7f3, 0x0, 0x0);
    (false, 0x51a1756e37002584682f48ffbe3a1b4ac0a9033d9ab828dc12e091afbaba5765, 0x6fb7b24cee5c69c942597e2fd0b489d199c9f0452436d0d3948201e18a60047f, (-0x394e1a4efdaf4eccf47e633ac32481d2bb10547e1173d90fc8711c567c137f9), (-0x17b01c4913a8501ff73140bda89b4d6a26fdadfd26fb3b1c5916232d0ecd96bd), 0x19e37dfe6c6ecfba22c0971341c79b6432ac8a18d237dcb25bd3191468ec7be9, 0x0, 0x0);
    (false, 0xf5d5020692adad1049865697e2af50ec79261d7716051ee5f22f07960ae6f952, 0x7a9880f831a619683ffc2e49da1e35d1a9075192ba2edfbaa6af50f7e4b3454f, (-0x2444912a7bac57794eaba523e6b71aa4a2fc2769a7eef1f601ff0718b41f5d1), 0x217f0df64b8ab6a7918af9dd01e6d00ef454a1740330ca8bbc052d49d23cfe98, 0xa39344f6b15f7ac393b7fcd8a781dee3491a696a31ea1c8494fc94197eb223c3, 0x0, 0x0);
    (false, 0x11c8bb11ca31963e761403a43ebca9112f2f28cd10a01eee7a11df71aefe9c1b7, 0xae87ed5be82ca27d126fdfc37c1a3e1af2223a4d4dccd699bd699826bae861be, 0x22f8bc491d0d27a8a99cf264d13d955df7661652a3dcbd8bfb33029d7a9c688, 0x2710dea996f8f9fb688258280461f91314d83468e59425bbc7428ddff8772263, 0xb8e6c706227d5217c679c966426158b87d64d90fa7cf62da3cad8d955878682f, 0x0, 0x0);
    (false, 0xc12597069a10071db829c1a2f1068422c691311bfc621d4b3ebb3d671937c3f8, 0x4d9e00b80320c161c09fa28cf34ab83067aff89e6441ab7e868f58b762a5de0d, (-0x19f537f62c1d734525839658d44d12808d052e2807c9c82ed28836ba92d989ea), 0x2fbb2b15885d3f4347648d9c48789ceb6f4172a91bebc6ed01ed5aee5aacfdbb, 0xa7a5530dffee2cf927dc9ad59d9de4e0197bfca9c775d1b22efff3ae737b585a, 0x0, 0x0);
    (false, 0xcc5d9c3ef5f2c767b93b89894ee5ccd93ee6e892059cf9655d1a00f780b7d63c, 0x649c093a415f12b01f5c89ca864b6bf2ea9480ebd043e6b7195afd56465193c0, (-0x10723609aab4419f2646acb45a16c9e74adadaf4ebbb003199b727cab24339c0), (-0xbe64032b3d09c9bc32472284017d00c419802dc20f6b5ef7ab3599849ce211d), 0x80d283075ad6d644e2dc4070e553a84234ba2989fd4f560bd1a907d010c61120, 0x0, 0x0);
    (false, 0x4faee4066ae91dfb5cfc06a2ba80c4c34e5bdddc5464ef888354bd73db045935, 0x18de4f324225e0ff3945c0f0f11aad38b1f5dc223ae361022c9c9c3b8e36c689, (-0xc2d96105f6d3a26cbd3ff5ede5a7d6c27958c80f7c5e620088ea33677c7c6d2), 0x3b0c730bf780a443f4edb8dfa1bc1e654499917652edd0aca7272feafaa4fd74, 0x72ad836a60ed0b9d15f530e8c12f83d8c9c5f0404d1a7b8d3f37a1e899ea7066, 0x0, 0x0);
    (false, 0x165ecea4ba6be9332ed41197268749cf82ed7ee74d177f4b338df49f28f5078e6, 0xaced732880123b1a43916d7bd059f8bdbe60a0a961917df5161d4696efc003b2, 0x617a0af2db8f421c48def8d1f615eb79b5ba7c7530229d856cf1b2f58bebf722, 0xff6d71738f09cb9f308ac20e12054ad466ad9cfa8a7dfed47286aa4815a8408b, 0x1c28f05c69f10af6795e777dc788e8bed2c9c28b0ffe929a8f17b31805b8a87ec, 0x0, 0x0);
    (false, 0x525b3941c106d4b58caacce1d342b140a67ed7163d739ea910ef5d4520aac5c, 0xd09c1251f1d38b5379e7aa9b2b4bd4326c63aa8f284110d8d992bfc7873e15, 0x8c933b3baece1b3ae677c9488e35814061b9e0ba39808311e2f1309f7173bcd, 0x1b9b59f742bb53c1042731e1df078f6663e80c07e94e783a3ec4a78cf895730e, 0x143b1250494584060d538de306e25f4d2e124efe9bb9ab2db3e1f478b3d3b4e5, 0x0, 0x0);
    (false, 0xe44e3a5497f0972a98a96e2df40ad5e65c82b6a064b678ca857c26c7332af617, 0x762b870e5859bfb0e2e9db9c39b1ece8287f9a24c3f13140b09297636bb7fba1, 0xa49fdab06b9827843cb7f266af6a832e56c4b16fbe8a0f25ca4e688b680ebbb6, 0x119552dda9af44a061a7f53cc5f3fd353fe584a92ce6290ff3d7a6e5cf8887012, 0x19f94398b0ae4030e4025cc388217f2e5620c718a148ee0619cd9b3d09e1b6fdf, 0x0, 0x0);
    (false, 0x4df47794d026c48b8bb7afccf129c0276b23feb0455a1167c6b7ad0a4bbe58f, 0x8758ec0e7dcabdb06c64248040b2f7ea16d53c1dbf996db27b8b3a1e98fbfc, (-0x1a295666e302be1107e8df8d0a717cef3ff912fb5ae5df90173749d6c9de2b4b), (-0x133657b9702b365f3b05612feb3bd3a2353ca83c5ad3b385d67b7e64be39b168), 0xe9e23d32686993582e4a044dd3a981c78428bfbe582fc5944834058d223ddef, 0x0, 0x0);
    (false, 0x18fd4a4753314c45fbaf9dc14b1afc6c14250fbfa40102aca53e00b25c70d804, 0x3cfb763942c39391c69a45c04642712845be1ad34350015b15558a8d5be1bc9, 0x93d02878a17b4ac9f612bab5769c37cfffb0b468ddb474d8446206a41e46a227, 0xacc615c86b205b09496dcba51b6a590b5247bea5c1eadf55c0b10d2811889c9c, 0x5e0079bf03a31b99df87600fa16d31aebe157c385d2b5b24fba8bb9c76e96034, 0x0, 0x0);
    (false, 0x2f3b2f6c9aa8b03642b37f53bcde3a058e194307a8dc80e5f29b5bbc499e4ca8, 0xb3c89074389685a8c008a9371f0172f73cc7ee40029d3bc6fcb8fab529e964f3, 0x95093c2624c3d9c07f536034a1c62db81cc416e37300bfb122a576dd73f1541d, 0xf4676d057b46a7c812815932ba4777947e45bd3ca4442e793a2bcc70c32fc66, 0x1521a25f234b9a501ca6f87bb0bac2fcf54cacc0b6a386173e17419d5d2bd0092, 0x0, 0x0);
    (false, 0x18131550b76b63caf631656228e2080513216c458627e0199d7ff4f5ed37759a, 0x10acab2c23a5deb314651b9df45a22d3d18bc813564068ab1b175f87441aaf0, (-0xda57eace76e90d96cec0d826986519702b972fedfb6efbf1214c507e829c697), (-0x103dfaa999fd6937858c5f11bbc06588ff94b2601e661826a536464f7a44cc83), 0x8c10888f5dfc7616f13a64af970f2d3a819707048a75c37b03a6821d9d50fc23, 0x0, 0x0);
    (true, 0x50fce5beb302202d571bca9552ee5d70b7335a5d7730274ca451de144eca975e, 0x48254f948b3370bfc16411f134bede5fa4d25c6f6dcb3444c828df9e764ffd8e, 0x7240acb6f32cfc03e02108ff72a2ded9575b7b5ae0473bf6679c0a22bd37c7ba, 0x576a3bac07280f110a0a0238c7585f522dfa3aaed7e7f4c86677bad681210219, 0xdba48b9164dc28cb3e9645a2363fab53e969a9d108bbffde4a7e25ca2aa83710, (-0x20377baf72dcd16a5779e4060a5091fb8e00511147b629e4586d2b4854372ea2), 0x3);
    (true, 0x5fd312434e792f81b11fbd23a4a9767ab6c4d57995cdc167239c69eeedbf03d8, 0x4bf8099c2de17f12500e5714d1637a1761aea6d45b7446b9216b3feb3ca7b08d, (-0x1e76cd2071b91d2e5899040c759148083ab35f74b8fb42cfbfa7959b3e9d1ad4), 0x764fcf56436fae514bbff3ff3435c3afa21c8128cd47f0a97c2ae76d8d1ae1d, 0x2fab2d685f2e0e68834df9ed937d5e54705157bd766bc2c4114635c4a841dc7a, (-0x137979016dff50ef08a5b4e18f61de6443e89fa5f267b60b6f2a724c22c4b143), 0x2);
    (true, 0x4083691fa446f6007b2592a1396471188bf8bf77360f71e85357542311987688, 0x226431804453f2125e36e615a781de784365103da7d9dd8023392a2441251b37, 0xab43041ea1e212e44d5032a343a3b4b0a8a0808defb1db06e264c66d2d559ddf, 0x86dbfea80e53ef849314e3e2e80ab223e70fce3338b326aad6b13fd4de8ff12d, 0xbd9bdb8472917f9716fc78ffb12a73ec7b2027a3ef034642c07cacc887ddded0, (-0x82e2ca9e44fe09f59227bdcc55cce01de924482afb2482d5515114d684298dd), 0x0);
    (true, 0xde49f5009af65559fc7de3f33b94375086890e86c6eadb51d05a25cbe61920a1, 0x4b1e4e13f4cfa68a76272f1f80822699a05e7aff95b44499eef191d465f09318, 0x3a4f3030f6a546081e3e902d56443ec4f4d56ea683d5ab06c06c336f754095b4, 0xdd1022b1752084d54878bf67f4702c9773854a731402e19a989420cf55cd58d8, 0x1456861c8b5936af628cb5337fce96d92bf19a983af79d6e596689ba9cfb28d0b, (-0x5e3d78fec37d0e1499241434e16ee440d2f3d62c00d0965ac49567d136903c9), 0x1);
    (true, 0xb93c914f6340362738fb22336ef74655643f9b9f987c7adcf1521ca687122ea7, 0xc8e751cacf414a20d711baf4940292848c7b68f609955e029c3f00be5ee3b166, 0x59fe8eca04d897fd764cf625577e1350426cc361c5e2d12ce941c68b2f5048f2, 0x90afef724a4993adfaa64d382e873cfd7bcb479210f3a47d63a503f2f7418d6f, 0x16ea0711e111fbb88e648fcc464680cf751410b5935a7716b718a76c7547e0a4d, (-0x1ee7cfee89486b4d4e8d06311737311f04ff45dd7b012fff6af12551f2c26f3f), 0x3);
    (true, 0x2f0e1ca8b21df04734aa5960f011da1a9bc8db9f7c4bde5ced7cf7b1d617261, 0x10ef75b03ef64a6234fdd57e4ee556f4af333ff122c1f8e41c17b355b2c9dd9e, (-0x2499f641122738189674757896d0ace589b5f470b39528272d80da83cd9bc256), 0x6a8f0bc3523e1aeb5411fcff90467f1111c2e31233b1e408a0731245e9364b, 0xc9a9e5ee3892655d78474656fd2e3ef048d312d53daafb6a65416fed2d3615f, (-0x2881e46d20cdd94c9d3703ff15d0ec04e5f8b753f6b2d7c6e994fdfd1fbb03c6), 0x3);
    (true, 0x5d2ce2e92444ea26ad5aed9824c51673cbe5427d171ec5690e3942772d20e953, 0x2e8266e9b65b3e30a9d3230c97d6745ef7f0fd9c44551d81364c47b5ddadc346, 0xbb3790ed4a7327aab339d5a758a2350b7765e2dbb7206671d67df61d564cbd05, 0xb7d6ad981a77e6081aa699492dab46d43a210a277f087d2586243a50b7fa0398, 0xee11748a67a43da1e9eb675834263468f28df4f34e1da67f4510f574029ae4e1, (-0x173ea841801b47c88904c7d18575d0ba446ee8ad931de0d54496e1ef7d277fb6), 0x2);
    (true, 0x5bba90757a49cf3b56bbff7cf211f7cf02e034da38e76d6c3130fa5de602fcdd, 0x20e66ed4c5c54f11c5d7a27e5f08d61a1ea1a04d2669e7fb6611cd99396aa54d, 0x89b25219cb7ff01f445aa99e07af81767aaa6bea82ec347e32e5aa9e65306860, 0xcdf77028afba4872bbe01e18c75ca044c661057dee0d562f6844325910ab0305, 0xd55192917ad4d4a16cfb3efe6d951652547e5a9ecff018fbe68b53224ccd4127, (-0x78596aa4d65bdce13c106ce9301cf6a8bded47b974df5dfa20e16b43a554a78), 0x0);
    (true, 0x4b8caf85f29c42a9313e5893a0ef725d8ebb97f3c54aff68ad642433f8491b56, 0x99bebc790afa32aed6c0fe75d76ae7067d4f708d175a8406534eaea56c11498, 0xbc3ef336ad27cd1b97c43117f9d8ac9d6b6c67253964c77b0494058079480913, 0x13f75c44a5557698c12afc47b009896eb0b682e54c8cf6576c11ee4aa13ca6f43, 0xedb5e46f3c65b5179623f7e98b69b1e1e89be59fc0a3000684f0966e5a1c9361, (-0x231e9fef3f2be7a1983ac6f0604cabeef767a40077054cbc7d8ba592d704600b), 0x3);
    (true, 0x94bd7bbefeac95052478c741d59f7f1f45acb2317bc60b83744e6a6e04d01dcf, 0x8b1d22a55c535c2d774680a6f5d840b283f05f0c5cec9a427fd70956c439b279, 0x1e3484d77b528e8026cc10b899720184ac10284fb2a7c53aa9837226d715ed64, 0x45d407d835fe6832199c06e34117390ee468bed742018b3e0daa68b9e2b7aaf2, 0xb4b8f8c6ec38c8d33ba3b942708488b9fa45a124b39c28914393654c7fd17986, (-0x18a30295d6be4d9a35f3a19b1e72994b6ea30c2e0288e94bf61cf0b49b216234), 0x2);
    (true, 0x4c16a23c2bc0da957f181cc29f961e2ed1a0d64aa824baae4ed0ccb664dbd580, 0xc8283b6cce03ea14d5a00c62a0cb2e878a06ffb5e1c9d820d21a780efc256a4, 0x6ed0b739699c4a8a32e7838a1b6f676c21a7a203a68958c8ff4e88d90ea6e7dd, 0xc761e7c0254bae63bb5f92c8a4143c1743808b75e1f1402f5c1404eb103a4986, 0xbf4608fb915a24b7d1946b66293d069d3240c7c20422452b2346052114f45a61, (-0x1968e8307c7bb9dab7b0043ef2c9b52b2abacdabe543a549a9b4ce7d2f9dd444), 0x2);
    (true, 0x92b42dcc8dfdf7d9f223d72221d9fdc1440c402c6fc2cdf15626f50db92de3, 0x22c65824e21f6f60ba22d8153821d36a33b4673ba2a743dcb99c3846ea60, 0x594383fe2cfa8788d8c2140f150896b605c6e7f0f180a2d03c53eb67265447d5, 0x11924ef769358a61759dc3277bb2c7bae4c22a168894fd5197fea0fa1ffd7888a, 0x9b3fdab2805225c6cd97d0bc812ea25bf97b217284e6b5824359fb1b97aa87c7, (-0x858fc1fec0c07eca594af9361b967a9eadf01f6805f6f4ad744f71bd989a818), 0x0);
    (true, 0x1e629dde5fb89505309810d6de803d8804379e1424e745b22e420f532bdd4eac, 0x17c4a6cd8fb4f592075371701aba6baeeffcc3a86c92a8a9ac03f636df6bf26, (-0x3b065ec55ba4892dd6c84296293846f70cf51622f4cdafb8ba1b2b6e9eaf6ce), 0x41c58556a47001fb3fde4e55923e0817f772c784a769eb76727b97117e0334fb, 0xa35135c024dc6855a804cef9f997f76bc0a33630bdaf51aa9abefa3eda3bd416, (-0x11e7271ec59c4e44921dc077268e612b0c35efd49172416c6973b6d5ea0023fd), 0x1);
    (true, 0x1452240fb75d3e94927fbc178542505fa86610749cfe9cfd85e1c3e8d031f156e, 0xe417887d1b1970e84361c73db4c1367c3ffb0ee7586fcd71141be65e4f295241, 0x5d7ff742e3f28d64d75f5c6d118f6ec69a957725bbcaf2e9e8a81f882636a02, 0x646a13ec7a530d7f9b4a145f306c23194085d41247cf4ceb91a46870b3064b33, 0x132cc1abce7d129c40ddd37d74cf8960330b80926951c3d28cacf5a68974c9f79, (-0xbd1316c36eccefc16334092a0f9aecad75fc289041ae99c81d2589094b8b688), 0x1);
    (true, 0x1ba9a9bd6553e8f6e57bcd60e9ccea23b0e24b50d0999a98277da454175ce0dd, 0x138bd70c90d996c02a0e332962093aa3c0451636f0ea254c80dbea003918e94, (-0x1289969ee40ddf3bb0fd24915cc65726e55808e23acb90df5232d0b26862d372), 0x1ef76ee97c18977bc84930cbbc691b6d4919b808fcfbacdf9584085fbb3d1c29, 0x9f85624fa8cbdd5aca6288bcc5be30aa6389e79fb0acc572e367345d88d8ec9d, (-0xa208d843779b7fc820f3fdd62967c58d8b3665844367412815cb5cccd199911), 0x1);
    (true, 0x2161f4113863d3f08d5a1a2a372aea187e03c546de379f426b40025d46895f3c, 0x2a6ea2f6da24bd255d846a4f5419730771c03e086231e2c6d365913517d5516, 0x2631558d9b90689792b5417c6a9f6aa165cfe6d217f83c13f04c646f72a50bd6, 0x875a22bbddc3a8049bd7d8ef7c2d0688a77ba6faef38f9b7ed2b75ea7a14daf4, 0x7fef47b2c4dfa4e28bcde2a612b8ead79270377591206063f9c5d68ac15c514a, (-0x170a2f98762dd4f45e56502927c02c1012180e66f21e5bcbb6417aef023f697c), 0x1);
    (true, 0x58910fd4df4fc24cc824f3ae7a57e0afea24cb2c70c95af2af7c6eece6b46ba0, 0xb9fe723242e10fa0e0ce14fbfb85ca46f7af7a5cfc5e0d9631ee8d085955c2b, 0x7ef00e002273c9e0c1035e4c0706882366c347acd733707f642cd526358caeee, 0x12c37c9aafb20cd55d297f772d7eb1ba3073f925390244d11533d6a6ebbfd719e, 0x100512552b913e94e64892b12cbe73974170636a15a67da24cc887f0943558119, (-0x1f90193242085b3850f21dcae15aa91faf0bf24476c267b2ba0fd4fa4fe653e4), 0x2);
    (true, 0x113691e2b18835cfd1453919049b8c3c3ce37a41eac78a7d185d8611cff879169, 0x708740d38b924d727bf07be11730e932ce0d50f0d745afd610720c8bb4b36842, 0x518947263767a04acb0f64cf035c61bd45ebce9c9d77fe15fbdd58ce10fe9428, 0x11530828ed4f8577e260b19518023bd617a8cfe2f9d5e5ced19b12935a88b0bf4, 0x18ea39b9a87d7243704f8ff03aa479bfeef79bf268acc0e926251c4516d8be2cf, (-0x5e7168dbf8e854916812ddbe6d96d423381c0860c90ef95b844421ae7eb23a8), 0x1);
    (true, 0x19cba0039125fd7c4616b8b8cc055c3fa43721a484391943dba4ba7027d9ddf, 0x32eb5b52c2ef9ee772d98394ab60b96a193f667182f46ac2fdb9e4c384a27c75, 0x4ad072198fad043cfba4e4a91171c983f37d49570977731dde09c151a555fbb, (-0x1aeaa1e39ad12a7c066c75b71cddf81d74b303fd74087a414de9f0571cb924b4), 0x567586a20fd2c42029372b7a126c3b11ef6f8aa7099c80eb85c7db7621cc554f, (-0x1d053265db2762c46f0c8fee4abcfc71940829f9c6bc12f1897e5000698689eb), 0x2);
    (true, 0x12718b09d51566b7661a0702a84a4feb421133de930b00785e34f11334725be8, 0x11921a9d4b2cf59f22ce66f57ebc64e9377c93a3ba6da87f327e0fbd1f08cec4, 0x559c766bb218063edbb2c0abd5a96b96093b1e24462c48070f1879de5043a758, 0x208141980d0b10ef437673eddecabca113d9fc171004b9cba9df86803b682b76, 0x5640f95fe370e0aea4b19f860a6177fd041ae48699322fc54082dacf77792898, (-0x9bcaec6949995ca1529105400b8281febfc446575fe0321af8a78e296ccd927), 0x1);
    (true, 0x2540ebf66befa3862b616668956da23e08d6ea1ae06126670fc5013db8e8730e, 0x3616f9ceb763b913a56a9785f856a926c67fb752ece5b6d7b5a1361d86e37fc, 0x5ba3f98ed536ca16ad22add3e53c22d07383e502f628a9cedc258b6633e8975a, 0xa7204ccd18cde71f8bd7ddfa6cc9a0d16c77d84ce4c5538c9c5611e4adac4aef, 0x8a8e81cc1a161915e3bd3344b8394477df320a1cfae58f74ee1ccb1cb72e866f, (-0x17d9b3355efa7d66bcd94da56bc2ab71aac6032b9f7b2f8fba05b56a1e0795e), 0x0);
    (true, 0x2478c1ef9a68aefd09fd4dff1d3421ca778b0be47b0fa8602d8a63c0cc09175, 0x411381a58652fa1185c94530f160282bf4a39f2073b17661735590499948e, (-0x178744f42ac9c23a62a3be566c9ac24878beda6afd7ae522a766dc05b3df202d), 0x3787ed05ffcc3ba47370753101fa772c4388a916be5496c4c0bd925ea2a58b98, 0x5294cb99f33954406a275bffc44c8c8a826b59683dd62690f9982679527404f8, (-0x1a3e685daf6a3d5cc4e56ad3090150b402b625aa506fe2ccf1530df10c33a833), 0x2);
    (true, 0x7f970f3d309ac3c2a049724e257bd0a6763cd90f771cb6749d62964f588926d, 0x6e5cc9d2b1b765a488075c3bb82a562dfd28cbc827005b27e1add897387be97, (-0x9fe61c4e2b15634868b23e35e053354c2ecc0539056fc1c5db940556b069654), (-0x8f2d39d8371300d90ac4cf941b39d1b47ceb3c84e1031123a09d494e8d5d9cc), 0x1832fa9e785e73c4735b40d17cddfbaa2b4157f481075ce2c86efec87895baaf, (-0x1b1aac59ef053c574e228aaab208d7d2c7f47126ecaf9f3ae54a885fc543d33), 0x0);
    (true, 0x14ec1c8443bb363e5af67cd7af88e211eebbdc0f7e98eaa8d3e10e3facfa8358c, 0xe04e1355558cee8d779500a3110ea42ceac762b9f4f8f5468a3e471c48c0130f, (-0x1df0d9b918ca9ced9a0ed3488cc559164abd389c177c97f15c9c5a139f96b020), 0x32543d90fec1abac40562cd347edeff25f90fbf0997e12c0c0bf71a900476ac5, 0xc4fa594ad3c0ad8bdd02421d85c3f03f0fb67d0383cd0f6fce1307a1c7691af3, (-0x255aa44c9a6aeb1d15e3148b41f1f488c0c22fcf1c628ba8902be488509f01e4), 0x3);
    (true, 0x11cabe3b866055f6ce1d90e730289e35bc9632398c64d448e5f378e04a3ec480b, 0xd0c488a1057cbb6df038a83f19414d75ec364dd65424e5d41a2576741f12b094, 0x3ce17b2187e06821db7ddaeb4fc04c3c682e3ed790c18ab2d7b1dde42d79b177, 0x92e4114c81d23fd1bad4f78fbfae9c7510a4be3598bf20703e89ab0968ef6228, 0x143036c46fbb4127dc4fdbad6ee43a9ed6b4df2fd6ef47d85d2a0d9368531741d, (-0x419990921175f182fa72c34c005980320e0bfb8d0fa06ffc2cbde76cb3ed68c), 0x0);
    (true, 0x2d2d22552e6d41b64296bbf59a7d9e318fd006468ceb1471146681bb19a9e6a, 0x672cb188b8131aa6f93274d4c30dacf0b10aa5c48bcdca42277c1c02e69de, 0xc98a614d9186ee7784d1a5db99b291e37489d90ba4983ea350e935c85fcc7f7b, 0x107226ecbc0da299d110ee9821d7cb7f3fc0682b12df16c8a85436bfa8827cfa2, 0x53e93a8fb8ea1c812a744ca4a90841c02237a45d4de4d6bd3906762264b58168, (-0x1f8df3740a4880dc0808527ae7cb7610edcd61299967e7b7b70235caed962711), 0x3);
    (true, 0x4cb60c1016aba74453d1e8108d23e9e0a012028340c57b63170ae8f9aaf41661, 0x8bd6df0f11e0d564b238500aca7873542c0585644b914ccc5174e7e0eaa34c47, (-0x857d2e235bba37b82ad070576447d21fe7f466c4b45084ea2982c15acf171e1), (-0xe6737c58fcd9fa5d5a1e66a090a75103ff67e420b2539b1926cb08ef4bd8a4e), 0x2dfb570f4b57fa582ceae539a9f328298c52b927d92f5f625f5c7af8843d64e2, (-0x82a2e3dacbc7e39cafba537f1446f2f8cbc13ab15339da1a8c1fd122dfefef9), 0x1);
    (true, 0x720764f2dc1f7485a6041ff9ede915fbe13701b24c24075c230f370136fc91a, 0x16d9c83e196342abc62b805b9b66e0851a0187d5f11072721ae4e1412b8e1a9, (-0x1b9cec5d86c683dc4602e290b91b27a1344d9d10b1f09e0cae8aad8166a84ebf), 0x178826cd841ee30054a50485ab230274edb10ea9d138c14479248bef442b2e6, 0xb38468ba90a0d4435c0dd189854691116f8568d650e719e5ab83687cf980ce6, (-0x49f8acdddec991c32b15f1ebbf32bae037d020cecefad5b2d9a9b21aafd6fc8), 0x1);
    (true, 0x2ee204f98d1998728fdd0617f906add53666756056f694c2b75204b3c8a062ca, 0xf08f613785a1cef39b216b41d8b3b3d22d11ab481d1cf136a58cf925714eff73, (-0x24f0bd470b2188ddfa2d67e95c0a23fa1c509d9193b663902a168ca8b71b0860), (-0xabf700a131fb6a2858d3c3ac1d4b879733fc6f2412962604a4ebe8dc8cf7847), 0x2e29c0dde150a30faec91320f53a0a5bb28563257cbcc597afb4e927d5c3a053, (-0x738834126cada607b64774c9381050ebb19b4f6f4e6cd35a7903c3f26be85ef), 0x0);
    (true, 0x119816ef796ed6cdaba194549bb095560cdeb43f01c9f34bf38ee205074cac2d7, 0xccf1341933fd94a6206321e254db6ecd9b6abce449744c20ef05f305796898eb, 0x530875966ea2bfb4558a3fd1ba0d3e4acdad88cf33a81f4f8d860d5e466db20, 0x444f5b6bc51a30b5522349fee8ba31f1282cc486b8f05dad00105b0995287df8, 0xc9bbf45939c0d37b164173087db3bf07bc3c56581ce92a2e15455354da8444b1, (-0x2235a3c3a43ba5bf92ac99d10168ded1f14bb8b0a56ce58280e65d342a7954a8), 0x3);
    (true, 0x850db4c0c906aeab3beee8d0e52f258008db99a4bc3eb7af62c0b5b9dad150cc, 0x500d79f44bd4bf2cf3ece17d999b7039f108da2b2c28cbde0e6e4445104f01d6, (-0xf6d2f44f9997587f0f1a16dad6a0085f67430ba6e66b52df7d99ce8a5136890), (-0x22ebe537c911ee8c8a8de497309c5eb0abf0304c0fa1005426b15156cd0ecb45), 0x3ba57407c36698078f53bfba6ab2d59df354aff0d10ef8b412987c9459c580ee, (-0x1b326b8158261f7753960b138e5bfaa935697fcdb87ae2bce4e2f197e71cb0d2), 0x2);
    (true, 0x32367710423e262e330e0cea924bfcdf3170f58d80d618ae0e1c05a8dc7050d7, 0x86be04ba912d1d62d87a4cf9813ef46db2bf18906d3debf44242af0f0685516f, 0x86e37a48cac2fda79a41fcf0d95f6c3d2688c7fc2e5c05a7d84f57514d024cf6, 0x14eeab12bb572d2a313c924b34e827322537146a0a1e6f8030ee013305fff87d, 0x1355ab2c204694bcfddf29e785fef8150e4e7042cebc9f1df3943267ce4889f82, (-0x1a94bfc252a734797b9084e8bb323e52f0387c089463c6de4d3db029a4eaf8c3), 0x2);
    (true, 0x7b57e82227cf994ca55843febd63b2d11bf55d7224d5aa36da74e58d8704ee32, 0x8d612d97407a2f0bbc6db095745b1734c0508f1956bf793fdc6a047d60d08467, (-0xa4a4b75be3c65fa325fcd7006ef906a29c77caaad67e60fa3f07d512d6143d4), 0x1c07e413d1e9f4b4527990c0d22514fdd67761e6c3d4de6da317bf98a4c73203, 0x7a103c2825a679ea6270dc7b05cff92736b65b32a000e958d26ef49d0b9ce30e, (-0x27e2dc70aa7ec6058e6992273d8fa39f7436e5c70cda3e1a51c94d6a82515b35), 0x3);
    (true, 0x3f94bee60e08bffb4ed674bafbec4f675b7a94c30a800eb614d5c03467db557f, 0x86e4b5fa764c622ce151bf3be6d7b7db7ca6a94bf67713b80bc09fa845290d0, 0x98799cf44e9e0572c760ad77395655b734451a97bbb4074c22de0e836517fea2, 0xfa1ee1035704d4b97b83ac27fd7de61519221751363a3426ceb772dc8d3f5fd7, 0xc1cd8cc6eba8e1bfba3fd4fa45f4c70904db46d86769b14c3f4716fb4f9038e9, (-0x1c4211ab6d3233f116569c983b4622b404307b382b433898bd8053a52f8fde0), 0x0);
    (true, 0x6006da4dd703383868f11375f40b9f1b3c03868a7943080bb33a8ce4c6ccc337, 0x140b538d840acfdc5725798a9ab3d66dd85d41e79a05b155f9652b698179c63c, 0x2253a45aea8460bff66a7a27e79b4b809493d852424953f4fdbd886d9bf3fe7d, 0x9393bce13e0d64bb871bde839ac9a9cdbce3967b431a9648e0f2d128316f4924, 0xb7092f244f47d0de947e86fb4e016291b5a4c5e8c88624ccce04056f1c9bcae0, (-0x1878b9c2e72f995161e05ed7b8487b3ed16cf40a968952334486b237b055640), 0x1);
    (true, 0x707acdf02fc0a56d23f7755575baaad8c8fb2a9324cdf46dd6626451ad14b83, 0xc4566c1286c938cec525be082a16394f7d9176a52d3ca9c9069f9f621d9a0009, 0x9d2ffcef3c794fa54f1bd819033aa35bc46f88c5633b863d458564971b941eeb, (-0xaa4c598566043cce85a309dc168125e142d9c5756c3721e5800d1fe58d5bbfd), 0x17493ed707ea2bc4c073936163b087ab6b3b56b3e82e24a171580cbdf251c9864, (-0x9ced7d3456c3f2d8afedfdcfc4446439f6768ed7146397ad5a9f1306f6b713a), 0x0);
    (true, 0x102ba232fbd397f2b1ce6daf533c179ce2b3a2c0a9015a5d0438460384000b3cb, 0x5ff593a9ea10289d19eb295988a8a0216b101f49f0d585fd5fa3203cbd1b47e8, 0xe2ac11cf07ed81b15e7665d51ceb4b12802b64ef20fc984019a136e9c7156631, 0x17f767a0ef18105121d5d0a851013499114d633bd7708fb444e3af64cb707d2aa, 0x1deb3d6f3d0a5532244ac8f5b870d8391918651661bb0b5410ee299c61d0f8451, (-0x18086fda959d2acb1b8c843b8b016b86ae48fcaf98fbe3c841a9f9376c477600), 0x1);
    (true, 0x5c6f143cc5410b49f61da759c8d3a6e161b8ab37f44f9a2dca9fc9ce7efdc96b, 0xab2523d656e65bd8240a2915e3aa2963334c6932bd8ff3ef0fa0ebf76896920, 0x4525ea97b775cb782a519b75eb18822696afe54eb64654f990932106a5be9b7, 0x2123f0d5a73a2540b304c557fe523a1ad2c13b74e5e5ed085b7bf523e7e02321, 0xd57041228cce06fc024a31202797f7fed23277ee9927befb40f3726654c8328b, (-0x1d68e800357f450421404531bfd397bfff701b3fd963e8b34f21823d1183827b), 0x2);
    (true, 0x2f4c3a328515c6c8c875e5ce290c8a6a852ea9ea50fc4dfe064911c5ede2c087, 0x2b93c1bf835b91733230d902a0d73d0b424db3de8f0a26fc9122f04b80577c1, 0xaa8be6366793729ed687354d41eba3208687d31f8499b5e8533206b820240ed1, 0x160c9e6c45be275b656ddffd111b2e2253f1e3d96e65bb8d540e12b2f7601b5f5, 0xf8b63f714054b8ebd12e5565978a9716a6b31d69c08bfa75a39424f75a394aad, (-0x2741cbaecfa383264faa5365ae1cd4e97d3a4a2a56c8caf93b4096e9ee28c322), 0x3);
    (true, 0x2341fe476a17cdb8d633cb6474ac7b2306fa43bed2de4a06471878e2a853623c, 0x10affe75e05b4fffe1a5712da6065c2d31fdb03d8ce653de6521c0b4a64625e6, (-0x1dda87a21071f649d4b36dd393cfe42268049aeb9c42370a426c8c0ca5c433d4), 0x6d355dd94c22989f19186123c57eb4126adfda7e90bf47efa20af3265d628ef, 0x2d44c7020ff59b9f0137de9b3df4f72c24c59b284530e04646ce59a4d2bb91d2, (-0x141268891c60b0f54478c820646c74978a63a82f63145e7c627cac1c6dde06a1), 0x2);
    (true, 0xb750c7ce500a600a82273f3a523d0956c3ae0c74031f2be4005b13d019005f86, 0xb7dd3792d880ef65782a2a917b99ac30444410f699b972c05c2effb761fbb6d3, (-0x2363a3db73cd4356e3987f3d62917f2af4689baeb1bf95a582b79dddcfedb4a7), (-0x101a8e7bafebe42b570766c4de175d0a97130d2ab8d91a2fcbe9ee02ef6ba723), 0x4a8d42c88c01d4ea3bdee988a210bf571c96d03fde48b0ff2912659e7c7d0f89, (-0xe06fa07dde153b87e68d1b90b8a38bfe751019f52dd115a19e096c3e72336c2), 0x1);
    (true, 0x1e90654f421f399173f8e62cb5a6c9dea1269a3adcaf75553d92aea0b2cde06e, 0x4d48f9167494ffb6045e3328338d30de8973ffa76eff18406ade4673c91277c, 0x9f56cb43ea3ba05f5ddb3b5e16ce851ae67c0fc28463c6946a32bac80f01c596, 0xa87b03be8345b31bd7d1c8dacb71ecb85fa57f60704243939d60d8cd82af3ad2, 0x6afc7c7c80171df7ec7a524f2fd9445c9c1a213bcbdeb7f4f40c942f9c822603, (-0x22ee36f70c79fb837941594e916ff213b1d22c01f641c3b3dfa7e97a92695f2a), 0x3);
    (true, 0x27512f01dafb56e5a9c3e03b8e468aac12aadce856889a9104f96819d402b46d, 0x4f6a8ddd6859da0eb48db619a210b19926bce4d28fb2d57f025d7b2741c78a7a, 0xad2a3d86ace46b34672cf691b8887958168a54ca1b4b5bd2b6b9aacd99cad376, 0x26c8f650449e4ad5619d05619315df940febe8f957316522c95a331bc370794c, 0x105ac06252ab7feb4db37ade0a5a0f7b2abb9dab74a02fc177793fc7ec5673119, (-0x2fdde7f0e4abfb9903a22e226bfe4f0624c0af705ed4a68ca2b9997e03a7812), 0x0);
    (true, 0xf55655afa22ecc2d54a3ee7f0a4a9399da2139e5bfb969dc726af0c24660ef9, 0xbdd0efd8a3b5568233be57083e006058ea76582b73bec695acd3d1bd7f4f9b, (-0xa5645e489e2a5c59e861ffa087aac41c134fa48f4d312a06f4221c59b175760), (-0x246ff8e190eadc17b30bd121d954837db41beeb8908a632d852079f0837b133d), 0x4f65953f41be2bdf577f41ff2922dde9a5c7667d5d3c566bf5d596029b04160c, (-0x1b382519584884528f30fc0ec46d1d672721f522e736e69f478105b3b36693fc), 0x2);
    (true, 0xb11bb18c38cf735c4ecb39a619479ce4548c83c1b30244c43f313d2965a44d3d, 0xa8a349d31af9387816e0a1727ce0b46eda33f6bf3bc296a37fe3e375742a9649, 0x22ae1c178528919a464c24b4bdfadf4f59d71d54dd0ff493169e3619abc507c1, 0x4ed774ef7fbd199cdb05380a544931a4a0997c429c8d4894ea8bdb5131364e38, 0xd9c8b469be8b5a39742b492c025f6f20d5e1503471f53fce36b9811e36a019b6, (-0xbf6faa16c714f79ce4a48d79beaffe5b229948d296709db0533849f4f3b5187), 0x1);
    (true, 0x1fabe4cab6fa948767dec111f12a5ae376f5b3b12e78d850168d6493699a0d80, 0xdd83d44276a93ac499d431677f20944bd61c6ff2fd404c277f1c88b240a4454, 0x1b382ac2bd3919015931addd342204e9e04ee246a824a16aa1e0f150b79b35c2, 0x1447e27b280293d32f1b6c45cbcdc46d0e9e089302bc0d0b9b9b407ef7c466af, 0x3ac5872475ccf804f334ebeb740dc8243d381d1ceaae165510ee404c8f4d2b12, (-0x9c17c4d83c0bf7314c22118ea4e51876b3dff8f63437485f0203b56e87f6004), 0x1);
    (true, 0x7dfa4e770a4711cda04b5aaea6b564b2c953d5486c845aa5e0c2642533655586, 0x7a557f6cbd5852f4a95dad86838fd4a6c3e10b160cefd22ee5457bc1729177a0, 0x19b988cc618fd1643c10bd2599b03f451e710e5bbc9f954369e62e194f63df47, 0x363395b099d59232373b26988271a3ce08e30ba2b34eab20dca132bc5e303abc, 0xcd4b3a83d5f63cda0b056a186d46ad2f7b9eb8336b33e80a0f5673cd0b24ad1e, (-0x1146977f999d6a8dac7aac5a983173062f38022f6687104f3b31d11213f6283f), 0x2);
    (true, 0x6b1d58ae1f0fb78d0d832106080423e47e4bb0217ec62a938b7c87aecb0b28f, 0x461bbec2896310fafdc080fb08095d14da8732966dc8ef378af87c4517b720f, 0x62bc4634a98a72833f47046641deea79bf57d00759d11b476c021df1f57067ac, 0x1e63c0b5736ebd26d01e7f7d602d7be9f613119def80edd25f3b66206bc6cd86, 0x30d81ee9e9ade7f957b7ed9186983ae0ffcbacfd4e330956eb992f21dc0a7968, (-0x50656a35b7a146e7c51295a9e2099799a999c2f7b393c1b11931b4d24f9bce4), 0x1);
    (true, 0xf9812bdb1dd97714779aecc5f636c73d8d0cb7685319a06cd0eed5f619e7a7e, 0x18891b2dad9d8815357241c294cecdadd47370ee4482c70760390453b11e2b33, (-0x18eb18cb04964f98bc92044e1f1876b52800365ae3e4e3b221eacf2e78f756aa), 0x3c85cd79a7c8ce78309e65bc7adef4912fe2bd7947c4d5b96fbe6b7b15fdedb, 0x210fd949e903a7d7e610e2e49793eb91de4076168ea88d92d599d78f2a61f5cc, (-0x246c7cb8bdcc1c6d25542d58c4837965b258982d472f893823386a5297172a90), 0x3);
    (true, 0x8ffe7423e90b9a13b82c4414c9769f50054d92ff43c183a70622121da7a40d2b, 0x4e7259505523bab56cee3f40e7f0571c0122fed43a6a32c38229c83bfaaef581, 0xd72ea46cc78d71647559e33cdeea20792cc619e66090e658c3496fcfed859981, 0xdb0be87ef46c84060e7656044a673cb0a61ce73118c2f679df864632c832c01c, 0x14e902afde90e229f2e1ff13879d3ed1d40b48e22bf0d1c57ae89d8b9aa21a2a1, (-0x16ac2d1fe86f6793d5cdf0d6df11705bd5fbfdffad3b453bed56e0fd3303c7dd), 0x1);
    (true, 0xbe68c1e75a08786ab7b4b6e329abf81133bf4071824f0c3a4698db124f013b77, 0x4fac41824fc19dd116e742be6531eb7895f071265c8495e98635a8a14f89a893, (-0x17b2a491ce99d271272027c699d8c6079b716c533eb42d8ff7fb7f5341d59d7f), 0x34d58dafa183afc1ca44f8aa685f960afb7ad4d729d960434dd028803f137b4b, 0xba13a72375916f7248ffb5934d7582cd67702b56961380e89ef3995ef6d7c661, (-0x3302a5fb82b7546a5f56a237f126248acd811f514e8df333defa6fdb3d9cf7b), 0x0);
    (true, 0x603f3e6d4997242d4f906ee7a1a4c35daacc181682ad3569b7674c28dcd86f25, 0x9d6e6d61357f4d51be3a26d3b19e4195e06f3d8137483c2fb347b4b6d4274972, 0xb49d0729538e7bf27206ae7da07f0939034fd82494ab0d391a2a5811694b23f8, 0x66d66fc33f474c2714e3fea1b5bc7befd0a29032eb2762e60e391f47d3d3f022, 0x16da4c0362198c62f95e4bbc5f7590f70aae3029d3469aca0fe48303c69670eec, (-0x25ab7edda573141080fa400c324c101c2aaa2c39908a5178a3dd96822f4f1264), 0x3);
    (true, 0x95bd0f1c2db4ba994b22e0bf06b0decc773264dddbe788fcc5c059e8b0a4a13, 0xee4c58ed80c720b775de2cf27ad73fc4d158f9f734d014f80fa895ed5c5230d, (-0x18f8edf59ac76e427e975dcbf20f0dd6c9148b43ff695fd1e7ac1181542d3972), (-0x19d17b78947add5147e9d88764322adeeaa967161e5fc3c10f66412e105294c9), 0xe3010ab168fd2c79d68539f10bb0e24ba24fbcc992f5c43d4c365d7d8ff826d, (-0x20a9dc389bcff880a10bea16282ea2d5e4f888717b5a5cc939811cfc398801a1), 0x2);
    (true, 0x7aa56c3c232cd9c8261cb3cbf97680274a717d258906a829ea49f23640fc0468, 0x33e5ab315e291b3b19ee9f941477a03eca754bc76986eb518f133cb7a870d981, (-0xdd736a2acf9199480591e13063125fb5b9560e0c035d7f572c7d7cd9f84986e), 0x1848b39b47c69dad51e15ac2935289340b2145757baf40646d1b56b14b464fd, 0x655572ead8c9af94972341ecab6728d8ff0a773b38b1e5aa08bd1d1df6113d45, (-0x1ada92341cfbf50868ea5b9ba6aa2fc62e8cbaa6dff5100532c22833bce1142a), 0x2);
    (true, 0x7754cf052ee4659382de09f8ce365332bd61757b9533f5ea1305c6019c18bad1, 0x11006f2d62cb00252b5dc749913544cd065f9491a356ee6d665b338a3310eff5, 0x97a28efd37a00cd5115203b27c1e4b1bee8d5a26ca3b73ec4042d9d06eec9c32, 0x14e0257d07b0e4d92a1267b820534e7edac967be28cc9188911c00ffd722b89c4, 0x13bfc3fcd6d88e8262d7f74289419f7e3fe465b7f7d4860395eb2895e73f2229e, (-0x2b1a9acf1851f73ad3e9725af319557b03c201c26417df876120e7c7637661f), 0x0);
    (true, 0x71e5f37f8d21a0c6419645a54e9928e034eb4edf124da359f58a4a7f75f29ecb, 0xfd40d682e9b11bd1a85d626770d872ab3077e85db5805ff1505fdf1a5ba7a1f, 0x56b410f1073d46f2d675d74f48573ce7afe6ed8ae937bc76280d776b78d163ee, 0x12cfdb909d9d6f0906e35c4588524d544ab1bb3b359eb6e85e2c02da267d16152, 0x120b37e0e63712977a8f2f4ff7d6c083e1a3a4e5bfcb7ddf6f71a0130ad7507ba, (-0xc05762adf5d1ff4d33b7b50573b3cf5b86cd8c1b30b480ae84ba38476cd83b0), 0x1);
    (true, 0x14321db58a745193685dc2c5703acdae57beae67a3846b1bbf618e59d8d2ef5f5, 0xe9ecd41aadc08046e6869e76ae80841758f0fa6f56e297eeb35328cf4d74694b, 0x1559e9abbc4a225172f8f1139f4aa0631cdb394539ac3fbe97c5d2686acaffcf, 0x58d58a1a32727c7548803f534d47bd7db8261cf42e5c763f7efc9ec98f3e3539, 0x11b9faaf1a9bb61da2749875be3fd85f16427efc898093f6bae4a4042048c08e2, (-0x1a5bf130d2ec390ecb01e0180efd72aa25a2f64cd9369c25425710c9664cdae), 0x0);
    (true, 0x2614c1ddc411a60f8b76f459fd9ecc79882a617a0e987e43e99875f883360b13, 0x254200a30db8f41d75b2cb2ade463240b0acac2ebde1d1755d09df55f5315ed4, 0xbff8aaa7fbb4e2f83d468b91843094a1689d81718529a68752b1a43ea1d8c6b0, 0x505a93cefc816eed1f2f43e402194f2990981be5f4d92be0646578d47b9126bb, 0xc1ba5c5faa675fd927ced26c8debf1be1c281fd569ae1957fe35fbffc9ff0013, (-0x1f448f38b955fcd8b82d838e055461d225c808dc1b61909b6b243c9d18df764b), 0x2);
    (true, 0x17f93aca4a34a6d821f594557d2f62c0963d297618e729fcffec13be773800ce7, 0xaab92595a14fd41a2fbf906c1aaf6539842a15b4a2029012a44ac29618ed7657, 0x14f28092284ce6f9127fa0cf24537fe0f20e029acddf5890f341c33d56be6ab8, 0x93096424f810b89a0b12dbe20f38d66f323ab3879deb1e3ebfffe127d69cd801, 0x1780e5b46ff67a6d7b5a9ccac547ac7bbc439c0243f5bfa2b67262945f341cbd1, (-0xd950d4b9ee108eed6d3f122128bf01d112f9bf9c7d00028df75852f8705686b), 0x1);
    (true, 0x568c29adfaddddb06e210bf4044ce0b3db5b88f3e8cc03d75822795ae5d62951, 0x47d5337cd0f13200f20c0a908f1a1a7a825597822fc8dc54864d12f9230b0e2c, 0x8a41eda96cdd8e70fbc2c392b7a14f5af0acf8170b45a47461ecf09ae0915a39, 0x7e4c14cc2813c939ce91a58b3e77b50d1842689a79e1d8f0a71fcc6487c8b28b, 0xecf089cb231f94adfaa806b5e4b5fce27a33c40d8af3eb0b2c1bfe5e653b6fe7, (-0x11d1949a3338476886c4ea4c0d85237500288de3401fc2a18b00b2878f6fb512), 0x2);
    (true, 0x20c9f7eb751d251485c2396b379d29f1c50e0fac9cfb0d4b5c6104810d29b9d5, 0x384a0122e9c0ec839512eb9d600a1da005cfbe8494efcf69892212059bdd7acf, (-0x1f9e5e4b79255315c5a8c5c3759ffae43837cfb3c3fa2d88f52e75bf88010b6), (-0x17a412e44b022e038384c0a0e03faec88ca2d7f2ba2c7a37336e40e240901e01), 0x3a39ac3b3206dfd29ee8772fd34502d33f0b172f88a66b44e5d2cba43c4f02d3, (-0x12e4c16c640cb8dc4c77b298c487c64945597ac73bc9a8bb1f9e3ea6b3a4aecd), 0x2);
    (true, 0x8290c07aca821248e0b944ab9e01b3a32838dec94a7993bbf1bd824cbdcfcb3, 0x17d88d057a3635c9827740a2c5faed8f6e9199e61005ba62e87c9d4557301f03, 0x36758198d20c3cb7e5baa2b453eedc49909f9af7ea98517ac641c7c995f3f262, 0x3a38d494e966b23a265ab688a559902a91bf245af7365816db07d9519aff2d, 0x5c1291ff24cd22509ce6ae14e71c39b0bd4f98c7b00628f7703562503ba742f6, (-0xacc22f1f65e082b9f88a50e1f1fd0186eba11d3d4a17630e6b0482267cf7196), 0x1);
    (true, 0x62ac901d2e7e442d5adee7e1a01dee9bf92f6063949338c498ea94f7e8fd3776, 0x256ea29577e5642927449c2af4758b636e0e7bef2459c38a1304982ecc678ef2, 0x28bd86979eb0693cd808ccee04239998e7f177f1a4a9cbd9d9352fd5c443f8d, 0x72dbc9866915f7841eb7376fb49215e73b75f9770774b20186fd54c106c3996, 0x55aa414a84a93ae5603316b286204514c9500c6c3f0cd7180ee466994ef0b47e, (-0x49bc6b74fc4ae5c8d96eb8c7639e6c953c5a9d86b315f3a09d4b7ba87122ec), 0x0);
    (true, 0xe7be7904c2c4cc76231cef7ae2c622d435424a8ff29296e405f3e6ec80660efc, 0x94cdd1df9218dab0e6e41f6b2bd39b06939066fbaee2bddc5fc0bd78d17fa683, 0x263b25d651d4042bef66b09cf640a1512ae0bcb3c4e0e1a1011dbf1d6bf5863f, 0x9d7576296ad694f9098a075948a4b66706860ff35bf094b25d6cfaab94d2f6b3, 0x1302395238111281f3807e5ad07a76d938c7b5993aaf1ebf9fa086b3d26ba720a, (-0xde60190a9e3d3f4c8623bc9068f6a78645e6728d4b72b893696df1ff06f7d15), 0x1) ].
Definition ru0_SM2 : Z := 0x359865aceb51b6bdbb593b2ef47adcfc3f45e863340cf767d4064d47e8c104f3.
Definition ru1_SM2 : Z := 0x1a5d31e005823ce76ebd68c618616c3b124e72376ab0f34ef26c933456e8cc28.
Definition ru2_SM2 : Z := 0x6533cd290a5724a12253626885c29181e05d0bcde5f9844c95fcd95c0b9f7d86.
Definition ra0_SM2 : Z := 0xeb9539fb12a69fa8a00429afc717f1319f0c8d5b6b742939772c4ea8ae886749.
Definition ra1_SM2 : Z := 0xbbea3c6e4f9890bc31aef1ce9abbeaf4847d5c84bfa4437849cb29256264e8b1.
Definition ra2_SM2 : Z := 0x4eacc0d01f9e2a10d4f0056c0628ef26e06a3759ce9c5557561509c6fc21376f.
Definition rb0_SM2 : Z := 0x4917f432249badbcf54b21b41af8c280ab08cc7ea1b75ab3c9f9eb90fd77a6b4.
Definition rb1_SM2 : Z := 0x3e9189e4cef372aefe3a81ad506c3f8352cf6d44b72776c828fa4557b6aefe5b.
Definition rk0_SM2 : Z := 0x3d00afb06b3ef8675610fa48a9f417a5a8d81220522cdedec2abf65691fd405a.
Definition rk1_SM2 : Z := 0x499a347bc7f9960a8d3f816790e66cef6527a0c1fcec19be2f03cb93dc4b5fb9.
Definition rk2_SM2 : Z := 0x80f457fbad7a9b75a964ff5710776eca3002541334e1e51e940fa68fec986c87.
Definition rk3_SM2 : Z := 0x52639fc5acd74ca043790e40043b6bb556eee2afa1a2e7410ff87a09b35539bd.
Definition rk4_SM2 : Z := 0x1f1a13899848d8cacdf0338d4cdf51ee0d5709678a713e61f29f6a7ce4ebca8b.
Lemma root_SM2_ok : rcheck (c_P SM2P256V1) (c_B SM2P256V1) mulp_SM2 root_SM2 ru0_SM2 ru1_SM2 ru2_SM2 = true.
Proof. vm_cast_no_check (eq_refl true). Qed.
Lemma bezout_SM2 : 
  ra0_SM2 * ru0_SM2 + rb0_SM2 * c_B SM2P256V1 = 1 + mulp_SM2 rk0_SM2 /\
  ra0_SM2 * (ru1_SM2 - 1) + ra1_SM2 * ru0_SM2 + rb1_SM2 * c_B SM2P256V1 - 3 * rb0_SM2 = mulp_SM2 rk1_SM2 /\
  ra0_SM2 * ru2_SM2 + ra1_SM2 * (ru1_SM2 - 1) + ra2_SM2 * ru0_SM2 - 3 * rb1_SM2 = mulp_SM2 rk2_SM2 /\
  ra1_SM2 * ru2_SM2 + ra2_SM2 * (ru1_SM2 - 1) + rb0_SM2 = mulp_SM2 rk3_SM2 /\
  ra2_SM2 * ru2_SM2 + rb1_SM2 = mulp_SM2 rk4_SM2.
Proof. split; [|split; [|split; [|split]]]; vm_compute; reflexivity. Qed.
