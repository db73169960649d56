(** * RootP256: x^3 - 3x + b has no root modulo p on the curve P256, step by step

    Written by tools/mkroot.py: x^p modulo x^3 - 3x + b by squarings, each with quotients by p
    (CurveRoot.rrun1), and the coefficients of 1 = A (x^p - x) + B (x^3 - 3x + b). *)
From Coq Require Import ZArith List Bool Lia.
From Verif Require Import Curves ChainP256 CurveRoot.
Import ListNotations.
Open Scope Z_scope.

Definition root_P256 : list rstep :=
  [ (true, 0x0, 0x0, 0x0, 0x0, 0x0, (-0x1), 0x0);
    (true, 0x0, 0x0, 0x6aa38ba179e6bffcf089e8ebe4068cf113de052ec360bffb356b7b896cb00253, 0x3, 0x0, (-0x4), 0x0);
    (true, 0xd17dd4490fa6197ada35e84e7846ca90f4ff7142c2e81274dbcba59dfd6833cc, 0xc2df354814afcc0c208b6130be5ec465034dab55355fe1f3ec1dd810e255de63, 0x844578ea84202a7ade5e1eda426a3f84e806f05f368f3310b4bc4ac22feec196, 0x720bf887f230b8531566950aededb8e85a605bf8354e7df5db993045f71e1447, 0x1a1903186a94de84b26bb22c827722c2ade7a626ca3baade0c6543ed39301072f, (-0xfd1bf3e1e61fc021095568917dd9b8148bfaf5c8bf4ad02eca283dbff8ad26c), 0x1);
    (true, 0x1b1930fb6a0c64333fcd6958c5d56160dbc364ecdf9e39b296dea860df9a3760, 0x5143e65a7e0d24154b67d5b397ba5d94dd8f026c0241262a2833386cdf88bf71, (-0x3808ce43bdac785a3cfefe3dc7e4fec3fe1e49bdf62909b386bef80b7e450101), (-0x209e48f16e4f12518602e330296d7efd71cd532b638cc0bd6e5da71dd5e80f99), 0x5d0a5228032e2e1602d3dd7735365f4656d241a4e1191f35a76c1872f6b5ff7b, (-0x4a0e7ccbaf713beec0965317579b68f38fa2ea1de837bc639dbe11000ead7422), 0x2);
    (true, 0x62fb11a5672d8790771ddd00f0ea8d39a5500eccfc1bb86e64f66a609d319432, 0x2263e4abf545510547ca5b517bd1ff0ae29eba08a2d25c2d5ed9762f605db388, (-0x22602d717f312568f34b0f889ca447c7463057646912b7db97c0840279a88b71), 0x39e733b35f4d494c792e7399e818e3234e9df42d45b629c47aacef3c2c4a7cf5, 0x744ede68a2f1d75674797bdf1fa75de992c852745859f9e54a28547ae019a562, (-0x24362299ce07d48494bc7d8fc36c5e6ce074617f57bf13286e7b99428234f421), 0x1);
    (true, 0x135be9bd9e09868e9be4b5697119a0d3c2cb3c059cf0586150c826de47c28ab93, 0x988a31542184461e8a29e5dbd76de4d9ecf130b98fd0666ee96f0a2da4ca22fe, (-0xfe76be90900d87a8642e0058b2604555620944b3a868c5ce6954e96cafa6fef), (-0x27760b6a484a7d400a947f5c725935e074bd3df344261a735d25bc167da15f3e), 0xaca46325fe943a7a379e1c1e1201798a0ce17d1c07d58733d4b14e66868a8be3, (-0x2b823bb0465e928f34a37ab865164868064eb70e3bb9d6b4f5004643bf9a76c8), 0x2);
    (true, 0x33d5a338c9d221f150233441aff286420074986a86e6acd2e7107b0f141d8ce7, 0x15bd6054673ee1f1aa6f4c7dc2c764156de07e443cce31f0daf701ee17860204, 0x10aea26ae5dcc693131e70f64ec57b7c5a72814f1b1a471c7f1019e70d47c0de, 0x52965ef7feaa7ae7651eeb7dab3c66274d87fe02b6f2c4870966d02e0d804fe3, 0x768dd969f5b5e36986f237b16de3d0b0c910b516d5e98b75ddf0d35a4d243aa3, (-0x2e00f37b58467be4888629c36d44ebc8cc0adbf0a623fe190d136e11728953da), 0x1);
    (true, 0x67d6d4043dc7dc6fb5bf859df1bbccb30cb7905ba50a75842648070dac4bbf5d, 0xb578ec6df45b513013125c558a85ec340b9a87a2c48567b7b32e1db4ac9ae40, 0x3601ec28381dc6ce9d913db16bd6274c54357342c20a67a9ac53eb2528e17bf4, 0x10c776829f276d9613a47677ecbd779f233319dc278bf4a61f29cb75602bf600a, 0x130be330b86bd5652a37a2c332867565a8d8fdf932c212905a428006cfc74dd54, (-0x178288851aaabdc6f80fa4cb1c843f106e4a48322fea59de7fbb2668ce34d6a8), 0x0);
    (true, 0x1bf6f08481a01da1cc54d7f1b906ed714534d8442921631769268ce5519851222, 0xf5fc7d69b19c88981a2858fa941a75e0de84ce4ac334a0fd4865a7d447009463, 0x480ea279ab0320adeba03b478a7b1af8ebf9b1c2c99ded5a2f2942539eff925d, 0xc5a267f38554a2cb125ba5513be75e0430ecd7cbcf67bbb3133b98afcadf2c61, 0x1e34604857dedc2c35dbacc39d3337969f0372d01fcd94c47bc238b3949aebbf4, (-0x4e06409ce2f4b7d7281723b4932c60b460d1b30ad5953d6036d896ba831130fe), 0x3);
    (true, 0x300189b69211b859c751beedba9cc1d29b0545c8af62df345b46c8eeaab88503, 0xc5b07f7e0f0b532c492c2d7c7dc4a33b6973496001939ffd05bf00863adbba2, 0x69a212a44804e48c94f719fd61bf96c50d5915d27cacff7c7722f6d98e90e55c, 0x81129e9d765447c73369ffc9ffeb1f9a2e1455f842b279d9b9fc22104cba50bf, 0x86e6b307b0db1c89e3cc2ea1a3d53bb96816ac37cd4b7635a542e50598196946, (-0x22faf0ecfff8defa7a3a1b9e61d709a004ff2a5c5a0565ce49687cf665c62d5d), 0x1);
    (true, 0xa0af22c0bad483b1cf0cb8431895b630a5bb3c212aa34e67e15f3bcda93ed099, 0x4d305bb12ab087587577d485702276c2bb7579ea7d75e43ffe56e8ad5b489200, 0x15eb0ac1d191d34f969f99a430441c8aefab9bb95192789d9add7625047870, 0x2ba89075c56f571f23463ecfde0676d1a52e9894e67565063dd71e8d607a5148, 0x93156ed0f52a6e73aff07288c4d37b6a65ada61fb0ab1b1eabbffceac7a51b9d, (-0x31082dd90cf929c24f1128d2d5a28e0778310fc1517b7b3518c81427cc4d6b6f), 0x1);
    (true, 0x17381b899b5a8f82ea94d43a888cd40605cf90f28b376cb557e2295091db89aa9, 0x997c1f1f129d9746020951fbb66674306e6891713bd30bfb80b20f47710c2ca2, 0x76bf77903cbd685c3ab31755566bf2b53514b164a7a2c2756dcbfd5a030862a9, 0x16b6432409579bb4f283a6f58013cca4a415a7d9fe98ae4c50583a23322353b06, 0x227cd0108bcec1142792d06bca0cebd8084800fe642bfdb43f572a630a5a25603, (-0x22571febe8f13bcbffce342bcd5c3bde290716490743c7057adcee2ffd3b7344), 0x1);
    (true, 0x155f11d73abf2aab5cd16f3ea534e4d45e3315d1e71ea9896e0eac6ac3b3d2ac, 0x109c39983dee5903c00b98ce7208c200729e2d0900a73ed968418c1d0c4aee1, 0x357f3bd04cf2ebcda105189ce8ef1e3b15017ab2c3b737fb545b19df835c5cc2, 0xb84fa3060bd2bd166c3fd842adf1aa6178b69fb2508a1f6b4fa8e4947d71cda3, 0x8239ecadec7d6d658594ea65fb9f7585a515380aaf26ae5699b5723fc2d49acf, (-0x4b1d821f2ca5b84e485202a8943052ba5d082bd9315ead5a6b8ee446d6c52c6c), 0x3);
    (true, 0x219846d3304f07099b3bb18820825010c6e9dfd5ac7a0fdd248a42704c486fe, 0x1eb90ad93e5ff19344f5e0c3b0635e7b72464d479f2e0dfbb4525545c0a7ef8d, 0x502ae57343eb44a04ff76b074d228ff4d0290c7c5627048f5f866c9858075f9c, (-0x4c2a494b13ac47d257c1a12762cc4260ae057735ab141434ab830a6bef9f13a8), 0x65ca526bddc6891f54bd954a97bae67329a9616ecd11f79214bb443e533ca8ad, (-0x36e69101afcaeb57a1b77d28576357541ebf7bad767c52756deb282b6c6a1d6a), 0x2);
    (true, 0x7171882128953ea6d3544cfe1d98af0ebb249e81a3cea2bc028d2ccc203efd95, 0x371bffa14cb88ba5b123d20f00683c5013c2a97a0e1f5f8f36d331f7c0efa368, 0x85b889beabce9c97ab5db4b75316c198662f208472f4eb796397aa590927e742, 0xbe5964b71444cf631a362044f4a3af01e8c5ed5c2f32c1054ebe6e49a8d79af9, 0xf4283cf204e1d80f1a074036613e4f3571668973027b8171818cdadf8d59157e, (-0x512448da1e114041f921ae28932d3c6017f80d7fa2f5e7ae3913398d0ebe6812), 0x3);
    (true, 0x19a44306bae502a8a89e963a0b69b50fa43e2c0f59b80b2e7da37b64d69665e5, 0x923dc4e991a197900c07d1e0f6ff354dfc39006cbf4aba9a40a62f1d8765c58, 0x83ceedece1f2a682f7063d1c9683d99f1fa9c3116073f9384fc55b0046f03bb5, 0x2c9788b4fc88efb110932284bc47374467f43ed29d22b324f749a3e47e3079bc, 0x5e34e334781983791ee361e95e67055529191904c7666928ff85a4e49ac646e6, (-0x3b76600b835168f5a2cea7cf5a39c0c15f7c9cd752e72aeb5e5c9223e62f434a), 0x2);
    (true, 0x122fcfd5c6137753ce127686240abe953c4e410530bb8d7d692941433a32db6c, 0xe5af4bca69ecf58b83bb82ca75e75bf025cd1771b0c639683cb0a1b323cb78a, (-0x1204f0f523e352566e517eb1c015a7a28b8d84fa5b807165936eedefeb378d28), (-0x22a9c0f6c5c0c756e1a5712c3fd926cc584a7fd41bfb3c9c6dd7bac6b1f7323f), 0x41d39575fb99624668a0b2987ceeb298467de1dd0cde74c2149bdb52f2f31938, (-0x17b882a96ff8d2594161fc154d9edae10bd407ae0b69867ae9903de350741369), 0x0);
    (true, 0xc59fc64e14af963f55f08a563194ea7f1c7681d14e1720c782ae2b5de8b5660, 0x28702a307736e1470161f9ee90fc33fbe07e09a214de900a03f21fc0ad7440, (-0x2446993c863cbaad9ed757c7254788035398dd885df9ce64a21014e34e9ae26f), 0x2f82aaa5e0753f7a89b8f083be1dbdd953c66447732ea947a35520ed602244af, 0xf4c3a60573948d47c025042d415b2e35a66d8a95acb904ae5fc28c2cb8eed707, (-0xc82955d9e4f2f46f7e1ef46ae49b087fef13c7ffbbcebc566f797111ace2687), 0x1);
    (true, 0x8f29fe9dafb9e46ee4a2e5d24d83fa4ee5e81dff54d16cfcfcbb3e6071c38d8, 0x1a2989c8751a5e290b53b9922a49707bc3257d82ed30d3a11259c8b60fc713b2, (-0x4f39080f59736ae3eb1f5d45969b861620b86f1faa6f9d2bbdf1b6423ad14af3), (-0x550f3095480aebf8cda4f96d593851649730b40a771d303032ca820f4b621b00), 0x1b6c7d55ce8df42547e78abb4f851ad44e20796c65c3d8c67111da90fb4f6a43, (-0x5f8bbd78c3592893451ce0fab4cc46d6d80679d30debad163bd1af1b8b96c0), 0x0);
    (true, 0xa195032f12d433341466dc62b018e4bd9ad1e8d183e18c8a293b37a031408cc4, 0x7acb5b6a16d4653214524b5dc618b77ff46ca4679092d7bccc3a73119ccc0962, (-0x202bf9f0077f8da641a9a79d821745d074c3c3ff540985b7287f310866797191), 0x338ac97af47df6bf6c6dc223bcaf95b15313c5be7a2dd8016faa928bebe0ac09, 0xd1f8c0333cc8913410d9210495e0767d0318dbd26b07dd7498743f712878a3ff, (-0x5998dd4a2559fbb4004f77fdeb7d725248b80830dd52ad39e94cfddca1e07f7b), 0x2);
    (true, 0x15253a1994c918925655f257087f29c9f0230a6399eda0650bceb54cbf7f8933f, 0x735cb8bfc60b71f05568f75eabcf1948b76e902dc9dedaaf733527c63211f6ce, 0x5b2a61b0c1e70fd4557c288b056f9d18ab80733b22a320fd3ab17887cdaa0f3, 0x59b91b68de6f1fb473f2d6de865eab6487107a93d194b004ab9071885a52f6e7, 0x167fbeb819f2e236a5afdbc372289778598b3c826a7ff99f269166aaa50898a34, (-0x35f3334fa10a06ee8d2e627eff9a26a1ff3b3ac5ffdccb130e02263501c4fc07), 0x2);
    (true, 0x490ad0942d7d0269e24e0e93f8eebd81c366b91bd746e897f282729c21b733ec, 0xe696decca1c6d81492b3b27c9ec0f98979587cb67424bfc27f78e5635d1438e2, (-0x3bc01027bd3fee9b60dd122034230b7c6b3435c21707840585a51a879486aaf), (-0x1fe9e1e5be2532c8bbaf69bcd45661d04d37b8e7f91ba0c57c595f0ce6800a1b), 0xdd23a90edd14a58d9313ba2703b7a416f8f4cd4862ccb4349230d435dcbfeb82, (-0xfba82860d64782adbe72f117c70d2c2bee9ae1b3c17b95a9c0b9fd3fe0d0911), 0x0);
    (true, 0x1613718810f73417471422a43a58f0883d40e5030601e9fc675c13d7b72c2718d, 0xb6924014e53b534e4c84dc3bf21cae32414a8a8ba134898ad5890cad6d35ab93, (-0x4fa234fd9766e9cab0492c13d4c7aeb51eae224e99b22c8e4522648cd9b6e539), (-0x3c4b0650c26845a0f68a6adbe1566be9a7509276e03e52be5a0a7508130a6c1), 0xbf177e52c01367f540ff94b21276ee17a162a8caa29984e6d6eb12d7b1f1e509, (-0x1d427546233fd90984090e1800b7fe3f4d011fb04a6ebfb4c3d1c129ca3c9e13), 0x0);
    (true, 0x17dabe2ef1fa9f8fc705159de789e25b636c8df49242fccff55b567d547e64710, 0x8f96ea939f6c8f8afb85eb5eed3cc009b86cd4afc74dc4a5c9a3fb73eafd805d, 0x7602aa368c7db66ee67b9266c1f0aa580a62e6f7852e82229cc0c817eed10ada, 0x112c71d310e310ca11e25c387bf305965fdbec0f76e1992fb521d0847220cc2a1, 0x203d5c3654e55e4a00368b30efca02599f969cac1a46da294731a6a779f1548e8, (-0x377b6be3f343fcbb3046c451d30ad799820d0aacb2fc20eb38e2193132ef004), 0x0);
    (true, 0x23e7bcdccfd2e1e7124f5f90529a1bf44f67433dc325dddf2adc32a77911d00d, 0x2d08836c65d5d12c7897948aa8dea2a7d84444714085dd9621ce6f444c88f4b9, 0x1ba8089b68f0e57e6729fa9ca9d6c79383ec6d74b2fe7ab76c20b47a95593d94, (-0x21ed98869f0320c001a761d3f2e503f0e08b166e08d7abc0146e9759e4a1d1a3), 0x6e8d9274396afb4ab226588833734ae4070b4d2fd1810de2c522fff88f51f213, (-0x18c87cadb54beae488456a6bb2799fb5d6c63d7c11c4916547c3a567d719217c), 0x0);
    (true, 0xf033c22dca0f2b6d23f3336e3ed472da4bf065eb5b8aadef5fc2385eca3f0f77, 0x4e69a61943ed9f227e82d30b0691a76294dd3ec648257cc7a153b87541a250e3, (-0x1d79f05c2bd4206d9717178b7a3f28fa417d85746d8940461ade42daf1c0ef6b), 0xa97ab47fb59322927b7e933d519d90a50f90f5f8c78dd28c136a9eab7c5015c4, 0x12c22456d34afe5a5214c88558d1a07f85f38af6ede55f075682ea34bcfbaf7eb, (-0x35e3635898a0b6da3a3281f6e01e6f7c24a877d99069b10e61fea4e38cb1c74e), 0x2);
    (true, 0x528847604f2c875a3de551eb374ac47ffa3287ac37dd4cfb2201e7a9a32f609, 0x11ba08fb2110ded3380ee2a5adf1c50e1a73c3994f83a9bc3c49ca4fae9a8f, 0xd7dd68f291299f2a21314343f70ea23e3d0c518d2751a294363503a623a9a118, 0xd543de8f2c24b192c5dd76333a685ea21ddf6742aea5cdfd2c15ae761747ad6b, 0x680a798586850d5b2d20719657a0f8a5b3cb6feb386a2d124fa6ab9e10e37b25, (-0x1a16d53f36465e3650ff57b297bfeeaeabf63703afe44e112be991f899f03d47), 0x1);
    (true, 0xbf51728c307b2a7d246eb990f38b91ce98c195b0e51d7c421eefd5c1018ad7b, 0x19971dc07f517bda36be4f871e609e5d663fa995bb48fe655baff52c595a22d6, 0x787651fac11f359a3e09fc43b8354ff782a60031fc0821d47e8575759fe18d06, (-0x9933a16829122560c207f1fbcf9a30bc40699af4696f5b87ac1480ed27a6cb9), 0x7fe49356f9d3b89d9fcd6718fb11f71ca628d700781c46398ab2f00a8655f244, (-0x37e4b07c22aca5219be3fa3d3b9537f9a3da54d95600e2f3beb8640fd928b7ac), 0x2);
    (true, 0x7beead22a33b80ac94958e11a145825c13a29aa10d5c54b41d0480fdb416f314, 0x20487296e14da99b7e5b700a9e385a471efa9466b04399da0dbc1c9de24a226b, 0x118f6c87def17d30026b7646fb87bc568ba260a40efd70ef912cd56b0e3be4d0, 0x614eba523f2777a1d39e2cd5bff646138668750fee90dc866e4baf13e025029b, 0xbaea7e530a16edfb1c1f27e7f9ef52c951b614c74750f39411a865466691189f, (-0x1093cf10836863db685b8233b50ae653694e80f9b89525f5c6658b6de5e13f8f), 0x0);
    (true, 0xdfe12d701e0848ef51f123f12c36c2a09cac15995dcdcfae8d5ec3859135e2d6, 0x7809b7ed37c3415548d2c7dcabef879cd1f3219a98815f44fb7fa55ebed7d8b8, (-0x18551809ea8c4975e1cbceaf9ad74e0c228d03bf3102ac7c7b5c96b5bd8082c5), 0x652df00893d82a9468cbaaa95c70c486177b18ce883f93f3ca32ba88a957ab49, 0xf52b20c08377d27c0dd4d995944da911f16e1a2627fa5cc45d79b4f9b38143af, (-0x2247a5b0dfc34e0fd078ff52536e039152b86cc47594ca8e6f79ef92928b890e), 0x2);
    (true, 0x41a9c89df30a13766d8974e9bbde8e9a9340591f6fb4f5de0834313ab149985, 0x179e3fc025ea690cabfdfbd129d1bddcc6242d3d680fa93889eaf3ee8516a0a8, 0x73e6f9d0f1953553aa0a956efa1fb4a9dd4af5290327a3a180a4bc2b37c39437, (-0x4c2aac0651f0327f6afa6d0079c8a1e50ca9bc29fa7521dfc4d60e9df1983db1), 0x7f6ba170d3215b5f7bfe2a5681abd58bba37f67100fd94431da6a14649072704, (-0x4dac567d65e1bf675f4e8d0495fffff28a3695b13a044ddb012f06933e38dd23), 0x3);
    (false, 0x18bef96e21110598e33fac5823fb5c5b1467c2631515f5df051369af0b0d1fa6, 0x50473b017b9f72367bbbbdfe4de8a284fcad5df8314ad951d06bf67b28fb88d, 0x22eed3533ebae9f79505050779f8d3aee756b6fcadb374cd83ed2b2a0dcddc30, 0x6921a32ebdba68f407ada38d7d98d5d3de91c64d4089c00f85af512ac9961bd2, 0x4971e0b77de231133f81b2bc09756ed1955d0e54326a5e0ddcaf06d71129369a, 0x0, 0x0);
    (false, 0xcade941a278c3d02262bffdb841d25e098322b3086fa690e88df1bedaf30f57, 0xe08bfbdc1e78f3c0f6b82d1cf8c743ddbbed1595f06d916e9a745d0c5ceaaf9, (-0x1c3f34bb6476ce8cb1519114f96f0c83164ad96732879aac74d7ce226773dc51), (-0x3a0f40b296a43cf73fa2b1e660c1739ab439e5e66f96bc70b1348e1ab1a979a1), 0x1cdd0ae2e5f91dc2e3effd23e85b0096d468f390c18d62e7c91ef7484a10ad3a, 0x0, 0x0);
    (false, 0x8b22c1631124cd99d1d0dc26e1636b1be2eaea26368aa44fe8e20f4f922b0912, 0x69459e2b64b52efecb7d1dbccda08352035e516dccdb93170eb8f80c25f6f255, (-0x3feb7ef3313d51aca36513abaf1c628d654ba402db09e54a51ea83dad8cda7e1), 0x4e9475b249be2032c8631c93122d2a18e39db69d4ea93a7c7443b00f0c4d1ac, 0x955858285a347abe2203f555ce4a9618fe89c2c55e9ed6d9540a372459f34f57, 0x0, 0x0);
    (false, 0x125c1824e1f44a896bad387ca956214fc2b15d344bcce425600903b8bb7de390, 0x1b687c04bc2e8dd1b87dbeeb6c4566b50c919443f63591bf6a04fe7062597a99, 0xd3de940eb66d89840490e407f621c430731c3d4ee047fb345a38f1dd45b80355, (-0x10bfd515a8b2b930b047e949ceb3e807f6d7aae60abe2a6e2a2dfb75fc2a969), 0xa33cb3ea96cabc2de793f82ab18020e9f73b020bccaac851547a82eace911492, 0x0, 0x0);
    (false, 0x1d1bc611595c23509184282562437369b0a417022147ab850ba6f6baf129779f9, 0xdebe3f2b5574cdf356803073bfffbfe2c3992a07f6a54b69acfffddbea1bac0b, 0x879d02cbfac2a1c97f2d4dfa9f06c7c0ee92c9e8db0abd7c35aa8c9495ac9ac0, 0x1846b51c439635ffe400410b9a9f7626223558262b862e9df0beb0d27b5ed9954, 0x272c6a10e6c447e4f97031cd27e5cc8445c3495978ba76979c9cb4ef469cd8714, 0x0, 0x0);
    (false, 0x14db2d6c3a827c677244b7512835bcd53cec203666f2a645cf0b3d924a0dd1ad1, 0x9fd4102547c4219eb1b4f788f2f30805114f4dfbef55392ae0db45ad202cd459, 0x4f0590feeb54ca20d7650c5dd9237e4b4195c7973830628d3f3a204dfca77582, 0x13a6af71851e0afba3618773baf0288f5b413d88a587fdc8c91688103d64e2758, 0x1ddcb820f8f1631e069397234e37c0fb152f23cb44ea81dc8029e3f052fd79421, 0x0, 0x0);
    (false, 0x3c9b54a5bb1f71234487f6e0a97ee6eaf68032c7b5132f03b07f6bfab0f9c2af, 0x44ece4ada4305811f546ce0a8e22109855e36f8d0e155a88ce2f98fe0d4e575f, (-0x2e45949aef0811c4b00635e837906198d34fcfa060912aa877b4020264d715bb), 0x14415ef7a5e31f6c33ca8c9f376b11fef2089a38b09430fa825b48a5574a764d, 0x4c10ee6140499dd4a79308e9a162b16c6ef55790a279bb269b3df6870859e5cf, 0x0, 0x0);
    (false, 0x3c8acbef95418c3a516b33589bfc60f3e1878ecbd1bcb38630136431e01d0a83, 0x16ba2572cb531c1564e706352bef9a5621a98150922c754efd438fdc1ec3198b, 0x7a632951cb05b15a360098ddf1e118c2c8367c84e282d3e93b3467d516c80926, 0x49275e91b32798f924ce6a3cb2d3fb72aea56a474be488990303494eb6a88d3f, 0x965eb97b503594962007248aa3037f5cd4b091c15f8888b1fd7c0f423da1d3d4, 0x0, 0x0);
    (false, 0x12fae067538c96e7ff2d386231026077efa35fcda61eaef3da16c94678013666, 0x17f5a655f9d9452ec12d995ed0395d4b1f68009768efef6d2558e8db8c8257f, 0xcc66996d5dddca887650575275514fba20ef71d8ad4217f59ddef94d2514c6f7, 0xb667f61b3877f560a740aeaf3c6432cdd767b5ad4ecff1bfb6b8bb7195c71fe9, 0x6294f7aaee5dcb384a6c95c7e137f23d856339283d1f59ccb9996b5f150c6eb0, 0x0, 0x0);
    (false, 0x82260af4ff9ab807c53cb44ddbe56075c629ce3bd009e4450ad0bf918ea969fa, 0x41e12660694e2da9afa73775b7056e70f6128ed6910d10663712df81a9e18493, 0xe0756154e07848189ac10788450a341c1695d4b08647aa05cb45ee6f099b1e3a, 0xcec8d4b0e990558308685f261c7a7861cfb81738ad06ab8b4dd74ef89fdae5d1, 0x1376bbcb961a51c4ea2a57e901a5f6399ba08078a672a983ad510a4129a41dca0, 0x0, 0x0);
    (false, 0x126f12d5553374ba8f520622a155af100451916293caad231ad5823eced1bf20b, 0x59fb94a210c396755b91aacd21cde74181af816e80affa94700be7fd904ebc6f, 0x11109c3a026b3ef044842f9ff30f3d17aec8bce2fb92f2252017b5468d6cc7ee, 0x122f972b3f687f68748038157cf49d6444cf5190a71b5c5643c77b3a467f73e5a, 0x1a7a24e8e13cf73cab6b54c8a81ef3493b51c91302683abdef1390cd8875f8c56, 0x0, 0x0);
    (false, 0x7caeeac39dd2c26d9f219640673571973ea422b8a9957edb54d8fa25e65d3a03, 0x20e4c7c6cc11c892e30406a42e606eeda3f180e58d0210148781bbbc2da2e1aa, (-0x147a9a38a032ea24a7072cac6c9b13845920f062be38f2abbc786adadde407d0), 0xe088b297d8925c9fcc0aa5e961c90044023949cfe86dc69e706389365726e75, 0xa422294599a933fbd79afcfb202c05c7bf0db9317abef4bc8ea51ac0b7847bce, 0x0, 0x0);
    (false, 0xb8d036b41b82606bb3a3ee8b835a0d2724a68ef1d0bedfdc8ccd0f2bf1b7a3f3, 0x2cc2fd60bcccafab54c1bf9a91cb65f6bd56de67c66fabdffafd60281b544c19, 0x12993c461148d3763ae6f94023906c2eb53b06b5fd29430b22bdcdad30f971fa, 0xcbf439ed7cc9f88e640ce89d783b14566a47ae39792040a8049c6ede25458957, 0x13f18f34da4fcb399bb99069276753f6b830fcea8e814151a06873124d528d7b2, 0x0, 0x0);
    (false, 0x5641c5072f848228eea8f58b92406509d904a86919139cf5c282f5fb6753606d, 0x562297bada654750356fbfba060b38c38c99088f63825b5baf7f1c520141db80, (-0x276b3adb5c679f7a5d3d9bc1cbe4609844a6d233f20406b89ca139831b0e0dd2), (-0x933213d0e7acb4846243ed226b4b155f48435d526eb67a16f4ef8b64aa28f9b), 0x17d68decca4634c0779fe6f536786c08906cffb15f2dca6b6d5c9f5d758eb550, 0x0, 0x0);
    (false, 0xca135d9f3f24f4651bf36fc83aaf151895fc9cc5b56b5731d23bd0bf6430fdbc, 0x633146fd9bbe1a0e7e997599c8deb2baae9b25b5ca1e2ad0ff01b78d3aff9512, 0x77365279eb4fa1c9c9235d20b4b57ca6a5e488fe79ba607cb7e2180880229e82, 0xe07d6e471732efd871f77e4a6aa24bc060b44f49984b78625a40c09c6c35282a, 0x16261495eefd80b1eea883e2b94928cf350b1d1f7dede4c37d5b369c898564906, 0x0, 0x0);
    (false, 0x2f5979184d3e6b10fe0fb7baf7c0a5c2d094442d596cfef08f40050dc87cd028, 0x86dfb612143520138bee746dd21922621c4b8862ba932712e4789611c9c8a78e, 0xc3fc77274dd32a11037d55bb9f8c5eec05e9c6f32318fd1d6ce4998f5ed20686, 0xae37c8b2827063c51264f79b8d81818e86570b39269a2021c6f020941e07ad7, 0x15627aa71df0b0e7fb82bb908e0c1c0017cd7d7eeb773a7e9b8e6e4dd9b4f03c1, 0x0, 0x0);
    (false, 0x8aa2255d88a4b72750ae806b2cda385a543cfb1349b0cc86579489e5fc4e7920, 0x185afccebe22c378e00b0c7e4694d8ce089a51136986424608300e4040d722dc, 0x3a631d9667b96f1b6b3c4d4e9d0ff736574b01be11b449a82cfe4f914585d124, 0xab918460a147ed381605ba1a934159bf89883f80c708a5871258a4dc6fa5e308, 0x11be2bb4303ce0b6c4325220be62b36e4c7ccfb9c65172a41b369512e45ec1169, 0x0, 0x0);
    (false, 0xa171a9811694de8d22002d3ae45b12c9870e32f05d49184c2052ac771001d588, 0xa21bfd28ea72fecffe6a34d3ed073c5a508146c4180c8c51c99b34d31fa7e1f6, (-0x1d57642ca7d5552d59183b9c30d3001d7df04977e7fc7a2b0ce8efc82eb9236b), (-0xdb3a9afc5e4adb265c1797cfa04174365d36c0451af2d9df2e81e7d32047de9), 0x4ffdd689e43a4bb4a7bcec2df151303b45851c967d49e2565d6fb7a1de59d778, 0x0, 0x0);
    (false, 0x6647b4673cf2489d30db8c75a1b279c71bb00ac0a4f2487e786da4c3eeb0b83a, 0xed10597b81907e196e6cc6f60705234c9ae956a77acea759a217a40f3c5eed19, 0xba4964732701ed952ab90432b881dd7fa839dd6bc9acad8b2e65b875d8ec0de, 0x9d738a9f770de56131bf67e8fd53c49352e12ad90a7bacf3cb7406f1345ee43, 0xbc3bd9bdf1e254eef1cdf9e10e3f691dd3d837a93eabee1d1097457720f90fe4, 0x0, 0x0);
    (false, 0x9f71e64f0192bf9bfa098fdf0eb74b1934875ffcecb111623bf07f8742e9a297, 0x3274b776be9c8699f8d6a9e8f83489f5e2569fcb6745434af3723d3084413474, 0x56bf4fc5d9c0db0cac81a505876cfa3e445e23c3accbe71ad0c04d37155d1560, 0xdd9f0bebb966598925ae7c88814ad174d7a600ecf6f66f749b90201f3e6e1066, 0x131f202026e0173b3baf59379775e59e05ca637303c2f4cee48ee55e061fe4d24, 0x0, 0x0);
    (false, 0x6ace96dc06087f33d5b36d1c0a3e3458a4ec8fd8ef3ee82311e9cae9bcacc95a, 0x1440112e2df21f9e54b2879b2e0925567319650c36234898fa314d13ac9d9d7c, (-0x46853e1f301fbea9f2e05517447ec77c168e5b9ded8a8a46189bfeb9257ea17c), (-0x21d062a287ed2b2d258f78b392e4cfffc9bb1705474100fdc01659c03cc8b446), 0x980d421fbdb631fe2a784fc32d53706a615a579fd95d6afed31923b1ac690c8b, 0x0, 0x0);
    (false, 0xcfa5bd0dc027d12719096d66a784aa428334d4ba82d02a7019d168da2f5510f5, 0x4c03f6dc2b8cb976946bd16b5891ce396664c5b0b2e33d44ebc61eae6de09af8, 0x8941f8aaccc80d85ed9d45f66aba6dd67bb691759ec92811799d31a4785b1b5b, 0x122cec7aa1190959ec7624868c853f1a25f292280dd6a04dd48da9147819f27a6, 0x165dc65b98e36a7558aaec3d7cced1b174e3ebed0147d9e8d3e45284d69b74626, 0x0, 0x0);
    (false, 0x22cf95ab72f9c23af2f568479a7b4a676e486e2e4c326ea79acba374010da0f, 0x1563e06e7b7eb873f19ab39040569caf78fa22bd5b694885ef496c91ac25d5c, 0xed4562456ee6e30090e0a528b42230da75e5e0696cdf1e56544bb62fe7b8b20, (-0x476821ea9d75ce9811d91da5dd4314ee088ba4e3bd9f0a1e32df9fc560f0a9d3), 0x16c7cefb18c51f8477037cc6804f2ceb8f33b39fda9b057fc99d04a9e38d9498, 0x0, 0x0);
    (false, 0x13744b851c2d18c1840e1694eee8ad8b6e6ee7d42a32914ab62b75c5e90913cb1, 0x7206343537e409c715fe4936e3320537309ccda86e67dcff71b727cacc5b56be, (-0x41222da5660d78860d54025c2ab042101385c1e7e5f9f4ed4346509068cd7704), (-0xa298f8111be99f3f6323d57fb420b94d9d0e66324553d69258c934474f591e4), 0xdd1860eda129d0e6ab5981f03d5daff352dde1c5c878e09afb133aa80562aebe, 0x0, 0x0);
    (false, 0xfaa612db291c7855bd5951b4ae4a200576cc5f05ff80f71500611b9250cd6c69, 0x9c88f5001f5c78daea5ba134f19c3c74eec137e97fabfe3d9e6e5a95f5ec2ae4, 0x516a96bac280ec9abffb75f44f118da0e17a94289c80e7ed60ac64063d7aed61, 0x82ccf6b226d240769412885b8be00c59387652062e2f4e4af3041312254f9723, 0x1790533ea546a16a66732da5d8f2c9ea663da194030c4302d90c222ceb248b6ea, 0x0, 0x0);
    (false, 0x6a94b5f87b484f8f8cff63dfad2635eb5db3c25c6d7b47db28c46ef24023f914, 0xc9997b6cd8a1ca12234ccb0f2fd9fec762dd011f12195d8658c489de2a3aebd, 0x43a310d1a6796c664413ef79a9df03bd130811790dbfcc419f1e3f40f2ff91c, 0xb41543164cbef157a318a5cffc0ef0da40c07f37448b99826b774ceda1fc0d2e, 0x1168b27a10b6cbc4fd43d49efb5621e3c0581cb05fda9f32b50e8feb38cd04df2, 0x0, 0x0);
    (false, 0x10da96b5c1aca78659f0b657354df117d991b7272e76bf0b33e06764b8fbac4b, 0x6a8267ed2cc757610c97cbcd015ac6ce200793c410484b17e0534e0ce738e05c, 0x18f73d23c48d7948b8cf3704ac265585aaf9850f946af7266f654235946b79f5, (-0x224c70513bef4af96079074c88d3aea43604cc3244a2cdbfe051926e5159e0bd), 0xdc1d02908aba03b865dfa94cb22cb292677f7a873ec8d928861ac703be7f32f3, 0x0, 0x0);
    (false, 0x8c91f89a1be9b06cc2843e106f8d964446ace44aac1f09ea9b42051207c05cd9, 0x296207cadf1e0c375255b16a3e314ce441e200629c2a7225dbc6ef1a2e32d69c, (-0x4d1c36aa14a4e45dd14f7f430b66456fa5565bcc922d42af481b81600f5119a8), 0xd0d8b9e7bffa7a27a1d15b59d0f5d396e306656023318399500317098da185a, 0x981087c29fd66dc88994814f5cf05e9f4018ae0f800e172e6ee0e2de8e57dfed, 0x0, 0x0);
    (false, 0xc728d29cc4e537afe8b0316dcf6ec0b904108b6cdbc11622e595dde670d3848d, 0x42017d4f69f865dc2bfeefeeae233b3844457f980e5adf8903dcd6d76d4611f4, 0x1d9afd3ebbe70dadb68f100daa64bd189edb73b1a01fcfe064e16c0dbcc3dd8e, 0x8cd389b128f57adf760eacc4126f0c125f37d53d859f653d13c6310763952ff9, 0x12b627685e0ddb29d562adfaf06e672e142a2d44bfbed9684fb71370ac46ec77c, 0x0, 0x0);
    (false, 0x2aafcfaf0d01095422c50cd351b43fa693b764dc60f949eee6bf3cbea5cf763c, 0x13bcb27c755b2b87c9d4c1de5ea85e95dd9b1149993d53f9a2e1626f0486e2a9, (-0x8e40b7e5dd854045bd8a4fb14369b962dda0544508a6d06739ec3d7d9b7e133), 0x15f1b36e9a563e9fb870a83905f86a39d360d162197a41440488807570e2f5a, 0x1bf95b152315f1f5a29ac63068445ceb7be5accbafbf57c4e8fd23ae5a3e5756, 0x0, 0x0);
    (false, 0x51db147834b40773866b8ab754a2e596ec8bc751e4dbea80af975242f1b258aa, 0x61ba28635df1abd2eee50027cb1020b6502f40c2c08913c9ad97d2bf4926c660, 0xa9dc47595569ade383cbe6c72afe20157cdbf885e006409cb9e2778101992c62, 0x2a11e729f7d9b41210b4d44327ea9e6a99ce79aff417d0f2b49119b594d3d474, 0x11341bc60f19dab22513a3904f3702f39952d2ff3d91547c7a6febd5ae1cf1a1b, 0x0, 0x0);
    (true, 0x7f7cdbcab4917bbae0d971edbf9b8a86f809189037ea850ee25b6574524847c1, 0x659315b26e70581635bc49279393d8bf5e590a9e0563cdb7d1db8ffbc384b3e3, 0x726787a895b78bd5e59867fabc20f82fbf3cd7301d82d4837e4017c305b24672, 0x91461505645b344792ea2d5fa84c292cfcfb11064afd089e62a0cbc438d4adce, 0x13e1c60febcf429e3db32b144d42cb092b92ecfaa43931254460da399ac8ca342, (-0x40d5341f6e61128aca275b6b024dad0abe8c8a2989a8feb7b75b377defd30f8a), 0x2);
    (false, 0x5b2348829cc8f7c3f5eb7abcb598aea2c1f8c62a54eea73ebbabb993341bce99, 0x125e4bc8052817839e7097ea42521d925465de7306e30b363ca07085d6a070ae, 0x58b4c39966dcb0633105c7841fb59a92c18d3cb426f4c296c42ae005e8bfcb02, 0xc1ef519f61e6e8afaa8f88a27007f2c2e0f6663e456d9fa31eaecd7a5b7d7ef2, 0xdfad88ae5dc582156cab06269b0e5b7cb85367e6953d9468115a928598abdf35, 0x0, 0x0);
    (false, 0x171c209459cd00916cf484b1b681d6e7c132974858872c16cd94ae0605bf17182, 0xafceaff3bb3cd719043368aca8faa9aaa7d3dc093bdbe66d83b7c978483597b2, 0x394537bfda8249272523a7cdfcc188ad2bc403ebb9564d1e975477627039adb5, 0x1298789eb589ea162fb68814bfd89d98e8689875fb2ef290559580d43388e8de2, 0x1ec9793b48a7c57d088ffb3d4f648062def2456934824779d8cb7d7bbeb2a69d5, 0x0, 0x0);
    (false, 0x26ac580d4e284c498a4365e121a61c71e8f26d1406c9f2d4bcbd85ecacc83ad7, 0x8f049ff28a11720e637da2a3f56a02cd711be70a57a3233cb37d681720407b7, 0x473347ef74d4564260d1617f320b5a4ac4f8422a88eb257e43c36ff2e1390f4d, 0x8845009426e1a638e8ead4e34da0e206f47fdd5a790ebcd0a47451825c8415cc, 0x69cc889e6196f28bcabaae8e40e46000a6129ac657937354e9b701495e7a4d05, 0x0, 0x0);
    (false, 0x75e78015672b1ac030c3ce27032fe9b0f47d7ec06adae796266ae82b04f2e44a, 0x647c33515149cf6d03c2bcf23427f45c440b6710bb115bc9faddcb160aa71912, 0x9ff413d11464b772a66622019493dbd38008e3d18bcd4894755bea4121762e0d, 0x8db0d032b3ecebf77e28912fd9c2b65822529e514087d83b321299b1fa3612ba, 0x13013afa9a1417f01394269f222710b513d2b90de41e90bf070e6dc1372b9d3d0, 0x0, 0x0);
    (false, 0xa961e91432470611df855b116fe39f406720c775dd57d8c2331be825fc0339bf, 0x4b2e778b661078e8532333ffc6986c24b2aaa7f0954ed2a4308eb662245d6080, (-0x48b055e3d77f05dcdf5c2dd66cd111b7af14413f166a9f652a7e3a625903ca05), (-0xd7d89379374ab634f8ab1d4fb3f396b5bf6fd487feff672b38c854b1a8fce0a), 0x93f15bf05bb50dab62689ae035599d8d472927f9b63f505de2f8bd6303ac243d, 0x0, 0x0);
    (false, 0x80b36ead028227a7763c4bdfcf1d3d0d3c638217c471e91c1118da7f524e2dc9, 0xfc0c10a8221aded84c7447d917e8bc2e30692488de27b6ffc425b697b036edce, (-0x28ed455a934cc98eaebcde4eb90010fd69b4a63e2271ca9f4f373bf73ba09c93), (-0x2ec692eb9881f8377c0faae4c008638ab51a170936c2aff86ca473c75a93afa7), 0x4e538efa8d510fafb066190b5c70f6903fa368ed44534ac500047f953b2bbf2d, 0x0, 0x0);
    (false, 0xd51dd326578cff0c2935ceaaa64da18924ece2f4bbd95ae25ffd6acaadbf1f1, 0x374479230a7e23674784c019f4ef403ce2b157700076c6ec2f96065f10bf5797, 0x1a1808e115209da16bd6525cd1d79089654d5e59216bdbb555f8929d4699ebaf, (-0x4779016a4a43dfa3374184b9c0dfa0b4ee19a3d430676cd240ceaf7f07b5db74), 0x80ababe94327a2dfed62f236e9cc793b44b88569e80df1084dc09fec848213e5, 0x0, 0x0);
    (false, 0x137877e9a1e3657e0b8a64ff8f0454fb1256f5968e3d50a60335cd3baea9723b2, 0xcd5f3699ca5bf8fbc2d80624e47793887c4ea3d6cffb30a9d9ff21d061b935a5, 0x7ef0b6174564e48cb903b87193d0e3acba5ffe6d1cedd281f1250584ecf6286a, 0xbc79ed1551a2d9550e1a7f2bd9100363715ccf3ef3a939eb122d8f23b6ed0aff, 0x1ddfaca4489efd5aba7923eb15ecc8a6e93dfbe3d9a8924db1bf49b648343fbee, 0x0, 0x0);
    (false, 0x203a593b51cf53649e45757373015696823b3a92ec1503cbab8c0322eb60bdcc, 0x6612755855f8d953e8d6a360231a2743abc9cfe3b0e458c65b694f32736dec48, (-0x1ffe9a59342fe16c5de266f782a0d858d8298979149394cf1db2067a8429610), 0xd1b62751e46d5a0eab3df1105a2f2d44a22dbc4ebf08047a9b6e9b125bcdabc, 0xb9a7a8478f9f1c3f818aa905d441c8e304fb86087047443edd05f058e4868158, 0x0, 0x0);
    (false, 0x40d3c13b0a5a6e5a7f957e8825d6bd7f224bacb1abfa7568ee3dc2e9e1f994c4, 0x96346daa6a14eea7ce4681d11a4fdf49567d4786bfe48cd726e34979e0b87279, 0x5e4ce7caeafd54034ae749720d1f400a513cd1bc8b0420d386fe2c1a8a97192, (-0x1d3778e00366d3430a57f717ed7e7519f37a1bcd1353d89616abeb26268c4a1b), 0x56e27159c229f0e3e7bb9edc1874b82eea9b43ef35b286b7537ce24306c876f2, 0x0, 0x0);
    (false, 0xa307363ddbb0aa93a8b588aba334eeff1da93e34e83858bdb787abf6d2fbbb92, 0x41342ff2a55ee1e7a87a2615b776b82fee41b5997a2d6b4e870fc60403d30eef, 0xaac7fbcc792d2ed4b82fd4a7597d9d228e3d86e59587e65c03c83a89a02da3a4, 0x100e43aad1b857bab8d22c6bf2bfb067d80dcda7dd34dd86bf421c2417edec916, 0x167ea9dad67a49dd1826906fb1358cbb1bb793ee1fc8c596ec17717e8389b9426, 0x0, 0x0);
    (false, 0x9d1cafc650326cd2e8b837327f5984b57b5058cd2cea883559c1975abf0708e9, 0x31c72bb11249e68b7f8ab37418c7e0282a4d37dd91a54b9275faa48703467a83, 0x1f11f887b8fbd70dc0b028ebb721afb1da7b646dea3c39671656e231b0cc6bda, 0x92746e239f7ca0360d388906ddb919ba66ea6d6cfdc0bd48d53750b837bbaff4, 0xfc2beccac1288a7899b19d819c022021bf7fa1b97d1f143ed4a3f2322a6e50c1, 0x0, 0x0);
    (false, 0x6b60789bba56a22875f69074958eb04ca3d4923b7e1efd7b95bfbfbe1d99d749, 0x32037781bdea813ace3bc1bcb5012b4be69aa267ef333b64d16550108c03ea0e, 0x853d7afdf1e1d9744c29f3df6e4e04374686e28170f537a54f97381d316e4e53, 0xd6f9472cea0ad1d694b9a9710d90a3859afbed4894cdaa4b6d801bba53453d68, 0x10594a133de274eb14c2844cdeaca2282115d5e27e01ad18e08f74c5292320e31, 0x0, 0x0);
    (false, 0x48ea0f904505de5c6ee7154673c340cb1210492a61061f3963877e13924c6d15, 0xcd4e0b1240ffc4ce5c43b9dc05c695a594637e7e3e624e062ce003a4de9c0612, 0x352d0f924178a902283c123190e0bf1b7fbb08c2439e4341e89bc8e69065df25, 0x1a62901fa1c98665f8f15f4ba2e523e1c4b19b82325c86bea6593999cd45d3bd, 0xec38444fd890d4cf5cc22d539bfcaea5233af296b566ee0936f1801eb4bc5652, 0x0, 0x0);
    (false, 0x5c11d9b458ff00cf30277efaba8e4b6014503bced42325e58f332e0c7542f762, 0xb170f0d0c1e7cf2bd555877465ec2ec641177a136a91f1700e76929b309769b4, 0x4ca300771a196a38fc59e7151e9bba20e3d3ba739782a7e8c9e5020e89f94a0d, 0x5acf00870e2be77fe968b6a9b168be65d05c5275e9131dc343564b174fdb2e9, 0x14bcc1fd0beccee82e146ae97eb06eed12260fa7aaf86c40dc98811428d272231, 0x0, 0x0);
    (false, 0xc562774e1cba925bde686544a453b05953d4c65ee522371e7538869a8acd0786, 0x2ab0b7918b07a59f84171e937255215541ea97759754605761a12ee3db63a77b, 0x43c1999ec6c474e9a155c3b7404f581f838eebf2319eae5f50ade9dbb17ff466, 0x1605b01716b01e4691fc7f4519a7d50087a8da3a3898dea64e36ed57119c0f9ba, 0x187bbb3ad7163830d3b71b4f28647edd51ea33d780d500422405378e9b04d2027, 0x0, 0x0);
    (false, 0x78fc6dfdeeab590050bc16a81d1767a522881c941543b80d824732b583438eef, 0x1bcd589d59d469572c363b9a28e079e5cef235c737311adc72c0f4482012a74d, (-0x4bf8befb37467c507eb9276920fe9dbc2fdc3e5b1455488b5556e7a2f265af24), (-0x330168e0e96b8af592529dc76e9259255b14d717282178ed294879b2c5136280), 0x840545491f581fb99d804068db25be871ad3e6255ed275186a3da980fbbce168, 0x0, 0x0);
    (false, 0x458ce41a85073181d895ac5f05e608e1c5e9122d4558b2a23c273c648d8281c, 0x2172a91dbae1592704066a929c05c381357a09f703abd7a642bec1591686a4d5, (-0x11360583a7e652bfb28e2fdae79132f05ce5abeb8885a1bbf41cb86e6e78ffb6), (-0x39124baf42aba9b1b74b1cc78570e6f669f74732e958fee85c8438c99405e195), 0x424b23e9165d6ecdf6d7c3deb51a44c541c0c93f052eb02afea652e0de5a1ce1, 0x0, 0x0);
    (false, 0x14a5d60b4d6d32af960f1ab8bc72e0142ede38a90d8020fa0081bef95afc2de39, 0x868b1de377df5236c4bcb13c0fabf7b56193e49aae7418516783dd86b9df8810, 0x5d4ff3fadeab5242084a50570f6f108661b1fdeceb8d0e3246e259c8821edd0, 0x198850745f505f6fd0a052319397f9db998a49f3572cfa8b871505accaffec53, 0x11cb433f76ac5a759f42783e51d80cde919603ed8389c7b03a3045957abb632aa, 0x0, 0x0);
    (false, 0x7eea82ceabe62be93e332600dd9cd69df4d7d13b197359876821e2da78bbf433, 0x1e8048a9bd687bed68521134541be2c578c306bb61fe67762d160aa22b0ee7cf, (-0x396f82fee2a05c511ce7be20bcaa35fad7f5a69653e8f2a90ea1811636a47579), 0x59dbc1bea69b604a58f4e12181305e4c55c0a391b3e713da3092f0a5c8fbb648, 0xb405335f2c6a37c56606e64db456b3cd4a91a2515e9ecc4da9dfc0d9d48689a2, 0x0, 0x0);
    (false, 0x10ea5ce0e774e9b805c35a03e223e9790a05239d579376213ab864f7ab317c78, 0x1ae27d825f19aab7e3e3ba29e9ca437fdc9d0d26652556d1ca2fee0b31bc085, 0xd34f8bdc56b4a70cad16b17044774640f8f5368b52dbca466c655bbe14b63eff, 0xbbd1e3cce3d397580f53a350d476c34d111540d4ad13e46d99c6ec75940aaac1, 0x51144c8f1b5dc124c92b4f415031d691d2e7275212071b67108a8d72a9872998, 0x0, 0x0);
    (false, 0x36cd58d26f2657849629f8df28888ee118ae2e16c7164503347edd4199d2105a, 0x44edf1d742d795267b6ff0213ae8c14521169a99a6549a40ae38f01a5226cf1, (-0x32d31426d1901b50681d0e8a389ed34fdffb2f298edf018453197b0c1cce2548), (-0xbfdb244b5b576350083d99036296f1e92de8d5e20f47481ec3224f423f6b251), 0xb17497cd070936be0f8aa888047ce6f4c20f8cb5ea25a0147f854ba369075c9b, 0x0, 0x0);
    (false, 0x1141baa465c3cbf6ac2fe40cf0c53f267c73b5bff40ed3858e618568016b9713, 0x50c86d8e49278fb24cea355d0d6c9bfffc9e4a73c043937ae1da1fca2eede479, 0x76fa21b6471172740be122c40c397af4faf4d55aa510a1ab9be37293b8ac53d6, (-0x2c994f30478613b158e839bbd2068b3039b0e6c2514f7ee47b1d350f9ab89bd9), 0xdedf0543b14bf97b57f3a6e1f6c9706e99fd4088bb708906fc9be9b74d9d756c, 0x0, 0x0);
    (false, 0xe4e839369be88e839eb4ec81ea2c2d2ca71172e26daa46ffca357c54ea54b0f0, 0x99b11c6be082fc7da2539cde4a3d6661deab66a6733055847c6b87a7cbfcad74, (-0x35168e5d617d0f3ca204ef83b8aab3a6eae3f80d173bde3c86817eb0cf2901f0), 0x7b986248e8e9eef0c3e250fd973dff3ee9009441e36c87175609dad89c30b4d, 0xb6e2419c47bf89248f1afff0af86ea4a6264906f91252e83c0afc753ab3c7409, 0x0, 0x0);
    (false, 0xfa9cc2c378476ce95a91aa39f514f0cc84af3f6038d24aa750d49a66462f3ad3, 0x4f1f44761013796aeb7580a27432348c6e328abb0d0abf4b352b598e6318c0e8, 0x6b194df25ebfc74ade826620d247fce0a0c322d9b9ce8528f6054eaab821ca7, 0xad0a16cd73989403b1f9131b1c88e1137424be50123209f584f6a48e08b937bf, 0x169e3bd5cdb3a7bc060c02ad0be804707e20849d3568bbfb7f102286d78f3f3db, 0x0, 0x0);
    (false, 0xc36e6100f157e222699435890975bd9a21de6bbf3a76a865e1cc979d20ca2418, 0x3102d96b926836706c54d77e25c23a30aae44f6e9aa8487557d3643deca73bea, (-0x313a8d23ed3034b1ff711d0644398990a72815dacdeb4b5f7507686187c29e04), 0x65d23d52593ae3762675030a2cd6c72a7b249c35fcf8736b8778433b330e2cc2, 0x118d439ea85607339bcee14a98208c8d8c1667b90c422726111a91e43f853e15b, 0x0, 0x0);
    (false, 0x72165ae804e7a0e5e4ae7b663e0c93158395513aa288d15076883a4053c46f1f, 0x1ee8f1bab3183b14250d3521b697e6beb0f800d26c3499aeeb8fb257fe00ff20, (-0x3f8576befcb26174d1b982ab00c3d5956c3f71db9b311f19aa2a6b467a91ffc3), 0x220d45cd0337fd1e821431aecaf3fa0ff4a4bd0e9673c57a479b120ab603bfcc, 0x9f9af40147063c0d2746b01bee53cd177cdac617b15751ad3e0204886445fd85, 0x0, 0x0);
    (false, 0x348411836d3d2ee3641b196db5f0857de154fb2a04487c70127f474556858e9, 0x17224dbea038c90c57eb9e5b6042e73692841d76243de1ca80d6fd512c28491, (-0x101e5eaf93ca647d4bd1cde17df100651d98da67a8d5f80d27ad3a3f09ce72f4), (-0x25dda6d3535736c94e8fc3c39cbb7c69e88f63e9126b9b57bca957a17dd5b164), 0x10aa9a1aeda87906e3d963f0860cbb73900403ccbb9e6c181da32830be8cd58e, 0x0, 0x0);
    (false, 0x73da289809d5fbc48d23baa89f7ccd5c42fe6a9e9964013cf08ee02922107ad3, 0x22c01ae5a2600ac09da1dd7d26bc2d3b1e6e464deb2f8e7c1edb608b04c06e19, 0x562f0112e8aef78d9d43d42ea824f13adf7066448e0f11e22168c1def55cd3, (-0x2e405f9fc28994e84f20150492451858993320580456bd2381659e52fa942905), 0x738a7b868200f62845ae8105e2abb359b42b9a61a7d6e12b9163ee3db1cb9db1, 0x0, 0x0);
    (false, 0x12bda119375f81798cff2a553f5a5397e11f4fe3775c109593c5e310bf3dab3d, 0x79169217fa37336472f1259e18d75e6228e6c2796956c6e9d10f842bf99f7d8d, 0x22907029f5e3daf3c83eaa637402ce9018c662730cf4ee3e49a8d56bc40623f, (-0x34f639a8131403d71a66a6039501ffabe1f26e9f167d036290b8a8380a164470), 0x564883d28e2c21ad954c65eba440249c43ccd5e0ffbcc35898ecfb1dbbfc872b, 0x0, 0x0);
    (false, 0x6c323f383429dfddd9bc05c6bccc451cd3ad5401d8f533ded686207e473b8197, 0x5bdd0f4aaed166d37c6f92393d3c58b9c90b467545dc119289d8c034c37e9c60, 0xaa998b47856859396872370ab5b7af1f142b511d7efd13a44eb73a99c5637b00, 0x7e993610296f7fb0862fe3b05bee5f0a543cbf6d873f1426957e6665b41dc182, 0x134d60eaf17e3701426bef28e6e24aa14655718193a02385d64b3d239a951ff14, 0x0, 0x0);
    (false, 0x6f79d21218b87380dd8b1217133a53d90762a4cdf1aa1fcd9932078c45a6d7ca, 0x13553d05f4d1f2a73631e761df756239d85c9adcfaa66ade74119cc59f8644b8, 0x1bc35043e27cee1dba74a1cb168b5eb9b1e9b5428a6410d288d8ff48bfef3bd7, 0xdcd250e861dd491c95d014ebb7336cff7fa5ed93e2a7b05c336a24d2f7de5de5, 0xfd7057f7aff89a6d84f89d42167f8d90d3ae7c2ec0212c5163ec841fdc319015, 0x0, 0x0);
    (false, 0x1b5ccddcb3cbcd8fb6e600dbdbf4690aa161a8062d8dbe236a920b9f7a51b4e6, 0x187b4fb4b9b2eb3b44fbc43aca06953de756565d6f09284750e6e487d6def065, (-0x5422b7517fdafe8108ac3df94110ab3914a75703e741d755b35cbb7da57604c5), (-0x2578ab67f18b04ecef5e264adb5fe4a0db0b929f1d54eccd53cb9a3b486ce4bd), 0xfb346cf1944d8e6ccd22ab6452e60f3192566d425c5fec617eb64417cec5a6a, 0x0, 0x0);
    (false, 0x90fc032bc28ce675d1142bef39a5ea1d136d684b6b769c94e239a04264f4edde, 0x567ad645c4523e0fd3d4d2746785acb949ecd9e00210d2e5a745cd29a3018e71, 0x72d816851b9c6a9a4f448dd2175245b9cde32e5afcd4a4ac2d7b6b8fb27584c, 0x5767fad40a5f2d259cf0d5f97a79b76a58a6afaea6b17a8f6692cdd477c8f435, 0xe6f95491c32dd16cfa318eeaad04e8883a855083ac4445f6c81401c04e77ad54, 0x0, 0x0);
    (false, 0x7a63cdc4317e816feebd2c9f130f9f4a5befe1bfd3ec5334976da7c356b27435, 0x40e59a00bb44442929721f7e93b84f9d980ffcc4bb9cde2a72801a78b0617456, (-0x1aba3b7b1020059a880ca0bda6c835bf0048a9fdb9202b672cec8a9e02a410b1), 0x12d3ac813c2841def514267d7fda0ac68d6542ede3dafb4bc8557129ed81ac8d, 0x7be6f4b4e989f65c53ebe1e529827ea0a1d4778ebe8d8269b816ed1a91f66796, 0x0, 0x0);
    (false, 0xdce6a75c45826049f79f2d7970c402f1580127eb054a0483090a8014e29865bf, 0xc1ac297ef0ddb5c3e7f64371e514956284df33b4518ee641a28878498b425d1d, (-0xb68e41b24196ec811c9b2026c7b489c94b51dabbe0ff6c4ffa6318091002b10), (-0x42cfce0df7985a8f710fb25f76acf9d544c9016c1098f60c7cc17797020cc7cb), 0x5064f6933604dc390c572cce4560b33409830211a56976b1749b96627e991552, 0x0, 0x0);
    (false, 0xd5cf99ff4551ab3afde19eda2aeef929773e1111d0519c0d3bf4245fecfa7360, 0xc6fb86e4ea800185e5c44c61809955ef48d429160eededbea16f7137f9d2a3e5, (-0x20c722185a2a9a9c731da1eee1cf03ee658b4fd267b521cc3130967f732bb037), 0x38cd066a8e752734afe9b2216ec548252f8c0e47a01c9a5670f77435abd87000, 0xb20b7e953f947fce85b81e0fc0ef4c54d5b88f6756e711fb931ba978fb09bcac, 0x0, 0x0);
    (false, 0x537119ae4741564f0e439a426379a01c8f40a6909ecd9398f941b66dcb635af4, 0x89a33dc0fbf94db7014faf2c4c075e455b824e69b6c1325ac76ad025c42f99ea, (-0x1115c72e09cff0d3a20bba86f53ff321ad0ba27f03e36d11507a77d0eea369c1), (-0x42f4f24a947d0c64fefbae32c8f2f2096677257e6bf83c24b63de5c4c2c797b), 0x72b5733d63d06f147e99695b89ce2342c29235b04d2105a529c32875a3658125, 0x0, 0x0);
    (false, 0x114de26c7da0eb37e094db988d903dd67907a1ab9def540de4200bc10909184b5, 0x678dc41096d04b23f4276a81526abafff9ee9ecf159cbe8e7e4e7928401d1f24, (-0x27325efa1ed99f7a41de1b8b4cc1a271fc7f6b92ee321eb775e511b99a77063a), (-0x15df0c99c4116ac4af6971cb6d4f77fbc92999fd0a4406d6437fbd2dcfdf09b0), 0xde3cc9665e681d3c465ce9d9305b8fd835e948c8f11b8e6247b3f7cd9906b135, 0x0, 0x0);
    (false, 0x5da4cc1e5ed3e59591354f2e48887c635f2abc84f4607f8a51f7dc5eead24447, 0x67d8717fe5182744134d15b48370f640fb2b92a1fe705cdab2afffb9ce29a808, 0x9fc26348956e359213cd25163a7f9070d888b46a38a779dc201c02bcfa39e9ac, 0x3e842c82ee8a28caeda14eb58661db651cfd30f28b1443dbf36e954d168075aa, 0x127a193e5c19bb5f8302f071a8907feb457a49aa24cf87a3185e9800df4f828f1, 0x0, 0x0);
    (false, 0x82d771c7db9658b6529d6ec44dbf23acece6592daba71fd323f0640f4758efc0, 0x5cb2b9b32c4e2cf29fb83de40d17c8484eb486c882cab92a9c6d70894af9910f, (-0x54e21d694f803e9e39a67fcf20733699903648f283ac47cec958ce66ee42d739), 0xb63c7f439a8761e3759f391b54c13724a06e246ccbc1af4c764a37372b46d3a, 0x53eb9212358b12f9a4cc65b56b277d822294974c5b661b32e65faddb47607fb1, 0x0, 0x0);
    (false, 0x147a434d9829e7ae69aabd29ea42b7dd128bdd48a71c122646a6ba51b759374ff, 0x6c0a996c89cbbaa02407d2118acfb74d21b1cc14768bd7705d5c975cbc6df311, 0x600fdd16e455aaef57f77faf2d097e457f46e7c0ab22aaa211fc27db329942a2, 0x11e810a85ff717015fca147236e950ddb84581a22e4ae321e5bb4628ff2342370, 0x1e9ffc8d4d528ffe17906252922d95212127d8588325d33078d8e2c6410ad7721, 0x0, 0x0);
    (false, 0x7448a8a9ae795ef3d579d288e489aca2a5d0bbf7af28b71f2c35546191368997, 0x47fe641393a3a00739add8a069ee7a929942789605cd7349cbe045a10d9e2b51, 0x9c8277b7ecd6d5f97b01efc64831a3cfb896ede47c6dee9dc395516317cf0c12, 0xd1bb7a9bb557015ac487f407326f49a25677c44ba1ab387a5c4ee67b863e704f, 0x137ecb32005806e766ce1a46f0ab4436df9c9c32074bb0f8d5578ffd1ea0c0575, 0x0, 0x0);
    (false, 0x334e1e511a7fcc6600be892ab48b93d9effa73fe9d529dc8d4915683de9e4386, 0x28be93b9e7723aed4bf3951dde6b94b2bf4cc00cdad42e4562f3432af905872a, (-0x3952b752d0b212a8f6b77c1399d1f32716d4e57a808371897d7e9d46bcc93ef), 0x1fd6fbaeff5b5277f913d67c4d969b7f96a65561b7c66613a8d5d8f3caf34d27, 0x4d435f2981008c63e7f2fd6758f27de57ce5b149e272914ddfd64474a5d13a2d, 0x0, 0x0);
    (false, 0x62fe5fc9dac1a655deb24a76568168aaa54abfc82d52561815badd66bc503536, 0x2cb02bc4480630d5d6fff9c4d69e10df9ef1e71a60267639f689f4ab49fd2deb, 0x1f02410701eb9190af67dc95e3074c187d8d63c316734e5b0ca963a09e7e1aa6, 0x7e34348030e57afd372be3535b1b14609e96f354563317baef4352c48b1c3fa1, 0xc11e997b8eab941db8adeda6eacd21370a03d9cb2df78c6543da43c2caabc6b1, 0x0, 0x0);
    (false, 0x3c4b84748be7f9e3d21ac3b45f1db2e9e46ff4054e8985bd3aa493f8ebe4a4b4, 0x77a03b78b4c96c13f8201802c84391819d4c0525c9a05e213b5ee53818f7e56e, (-0x41cfa76d044f526c71a3d7e1d104a003dae119ba7376c900f4632f122655d642), 0xa889e36d53b7ae1f17dd369729ab7d47af1930257e9469705debf58510ca6f6, 0x528b5a23f14d7a973366926dca7ad949bbc91943bc1c29d68a555b83b011b02b, 0x0, 0x0);
    (false, 0xb26f390b48bfd2b6ea30858fb41b2b9e219543b96f3ae845f66bbcc373a7ef0d, 0x8d27f4ade27b7b2a703742f00ca00e5393bf0a8ef2b1203e5b036ac04bad8d7d, (-0x325ee3659d45baff34aaa25868e6ae7fc40c4e5f170c3ca3513f69eb828fcd8), (-0x171d3171f2caf6b2401c108971d1925be1890669339716eb141699b43def1f31), 0x50700e5d0a973972d08ac73c8eacc5ca53073976edf637be31bd2445b2b1590e, 0x0, 0x0);
    (false, 0xdbba5a6b1cf5479ea2d30561a70eac1b835446b9840f41de2d2ee2d056ab695c, 0x8eeb8374186b292926883b46c0ae9855bc6a8eb348fd5d76c6485cc4d923a0c3, 0x89d975a716ed8eac58ff76972d24d70495260e4020c97d0e4b1620173b176b4f, 0xd0f8e133dc89f18f5cf430d4a16910eacfa29c72e1aa8b4b2deca5bfb70d2de4, 0x17071a6f478105c7d751142ec82610a13b1e6b5f6691dc3cdf24dc8393db6cc3a, 0x0, 0x0);
    (false, 0x8697a9818ea0742801af0d26195c20ffc4f6f98855739e422c27d1a07cbf4b18, 0x473324eafe5c9aab1b8692d551a9b407c311f16dae57b4bad3f26b8d4c05b6e3, 0x14e5c0d54c7593a179a50d75bd5b6637b52536dc5bc4ecfb483b9873415dff8b, 0x7eb8a77a3b37a8f94e14ebae949efdeb2dcdc2fb335e6d591b59d8954e24298, 0x923680543bc3fc910a2890bb4c29aba0f6b599822d7a91ffac1926df852208ab, 0x0, 0x0);
    (false, 0x38ab000ec0e3a5a92141a75513b96663c1180a12ac35e44888f3ecb4bb53e748, 0xa17efae7d8cd49ac44c9d0e2e8888c2d9321dbed47dad6209b4411a9f87f2bd3, (-0x2ed97693ccb5027f26394e4287b947bb59015585ac93127327714aabfd748204), (-0x25124420edad0af22aa6e3bb40fa90e41cb23afd1613b3a4cbd583acf1bb6e96), 0x1616632a70e5b498f2a0d0efbb9c9c12be6098690fc9988495f7ddf212c16a8c, 0x0, 0x0);
    (false, 0x435944eaa40876993c3ff5934be4dc20b899b22aec5e229aac5c0090d96b9a14, 0x57020fee4a79fcad0a76eba1a23a06efa7b50d572a2a333ebb6c02149d462d1, 0x715960ae127669a56394d947c30334e94805579ad2379633b03092f5e97e0f24, 0x119302ec58277f7f4f24b1f15a64b029cc7153fd35a0358e333af415fdef90c9d, 0x1059dcfddbc0f495a89b43ce9a7eec136cbca2003415ec20cb8221af12ec4f0aa, 0x0, 0x0);
    (false, 0x29a229db99801e04cc93b1b41c793b05b846c7daa014a0eb52bc234555b5d391, 0x4dfa1a4ef30ef937f0b25dd95e5062ad915c0002e2730e49dc64385921889535, 0x8aa84f4b2c585ca661a8b26cc198aab154ad11e52ecac5386352c872706be80e, 0x142ac462e0d79838440a3f50f87ae2bbc07493d699f4ccdc6c393efcf192d5ef, 0xf9375d1a1dd35df2dff39e4af09a5df2d2bcefca95566c7ab52082b4afef0376, 0x0, 0x0);
    (false, 0x15cf5eaacac07c7be49188112794354cb346690db28c78812383d32ee583cc26d, 0xb331617d48aea38400f2afd8cfada04fc675d899ac3c1b4a1642f554be5fb26b, 0xc0f240811d42be23c8acfb3c9348d58bd2270015158807712d618f0bedf3d2d6, 0x13ad7b383beefa457001a42c713972ca805e49f3cc62f243e024976e2e4e8685b, 0x2433579e9ed5dbbd8af82640ca871494ad26ccb0fd462af7a5a1b860edd0f2dc7, 0x0, 0x0);
    (false, 0x12208556b499c4d5466d084316b04d9b0772337aea598de2f93c6db0aeba2bbc3, 0xc562ced893b7f2fc68105b2e6e492a0b50d29754b0cf1e128884333426685cf0, 0x61b363dd4693152d34c14ea30685af1d262c5b3154b9da19d1a69649f83f890d, 0xbffcd676cf45ce9236ca4ff317980c1a55746a8a0512a27169bb4e281386960a, 0x1cc4e15ddd564d4f975568730a140ccdc6c99965be8062e4a985fe83df5251196, 0x0, 0x0);
    (false, 0x4682b7e26c38c7fb8237a2ee75de927cf7028cd7a87fdd8fe150780097eb7355, 0x197aff4e7931aec2ed405d7d0d3baf5f153de861a3d2a04002565070c28b519c, 0x1cdf455b49946e1aa1d78ac0b1fa0a89980030e0135c448f0aa237dd3deb4dc4, 0x3eaddfd4b7f996dd810ab7a363d390a27102b3f8250043aae12620d5a78797f2, 0x9b6a996ecc34cba50f95b5ca1e94e33a29331780882336abe2b331bd4eda86dc, 0x0, 0x0);
    (false, 0xf18e702aaf66d654e566424f74b93ea926785ed09f78189822acad393890f90, 0x1f554ef749fe175a88dec240016369b7b1184802363129c50d190aaf5afbbfe, (-0x263eeddfbf4627e0a608d6fdcbb0747f849d4c63bf7081bd21677bd38ad54226), 0x9b83c1cf1ba9e36858a82438a2fafd000d6edaf5c88f43dd5694d7d26c9198e, 0x30f15c31960d8ce0d332d79e4b059a42ef297a18a5c0a43d73e8fe8dbe29fbb9, 0x0, 0x0);
    (false, 0x1227a584b4bd7aa603b7a4f1d05ed524e507473325963daa4a4fd7ff0d601a02, 0x3ead54ee1b9e10d308633be6857e0fa48e01358a63342acb4a659a53e48572c7, 0x23aae2d5e39131e28d681e09d6c760aeb9cc42f9cc0c79304c3e58daa389fea4, (-0x2ebd2c9295038d8d4acc2294a5557680c978a57f7cfd03d8a0565ef99473db57), 0x62576188564c68ccaea46105acebbe9e7dc20a634ed4eb1d9fd3bf2f6d44ddc5, 0x0, 0x0);
    (false, 0xd732b57538569ed6eac750cfe6168263da4e08c19e15b04d7fd107ed8002214e, 0xcdf90503582958a63d3f8d6e900e5545cbb613bde2496bb97e6137ce5639aa3b, 0x2b5763a5370766ce08d12b5be21e695aa7746c792e7d5346a3293f257c85d6e9, 0x62c7f9032695137d760bfafb234e7dbfc0b14e1ae7af9af79216682c316ea758, 0xf7854c4978cc64e14b542f15ccdef540a10c73624c2f622b0337a3fbad9d8072, 0x0, 0x0);
    (false, 0x8bfec7a848ec325a404598b0d23cfddcfc299bc4c8133e68c711eca53916dce2, 0xc57f3c436dc0bc50c90374b3e6f9858f9204666bb2c342802e25f6a312b67012, 0x62bd8008cc62b1efb21b5c9c93b4b25cb4ebf639647ab07fb3951d8bfcb27f45, 0x16a8d253d69b006a9ac6bd1559647df5c421c3b37135dc6c7dcccbfaec2f64dc, 0x14bc26b7257691488ee7972608c878c8827bedd654e8907b842de553054db18d9, 0x0, 0x0);
    (false, 0x10fde2d052c97c524281e2e4505bf3a77573910465268ab29fcabaeed88418f12, 0x646641fab6381897bc408c32733312df94aa9f3dbaad45e2c34406cbb09ee612, (-0xd20cdcc201f1c57ecf243eff9a57ed880d858945469f260e4a027c5c0ccf19c), (-0xc1531e7aae01713b3090e50790b27684dca509ae1b463928258f876f7d1bde7), 0xf02f99a58c97ae89e9efe0c608a6623704f0e994264242cd4512e2c7e17223dd, 0x0, 0x0);
    (false, 0x5b6cc14415ee14beed8a9c74db3fbf2727689ac2b2c993183d599ffdf3b0175f, 0x11e6d34cb4cec04c865bd27e57c7215615dd5ae5140d3153b9b23ee44821aca5, (-0x4d3f116f6d03c0f4eed627e42c98588cdb0a8102b9d51f0d8ec2891c57de15e), 0x9a1dffe48340f17a5d62af8294fc3b269a52678fd13232a855625e9035a5a7d3, 0xb66de282d8cb44afc676dce13eea583dc4bc050e842897023145e6cbda003630, 0x0, 0x0);
    (false, 0xb94cf0eabc432b4ca759754028e134fedff42f72b1ff4c620c2e92ede692be28, 0x35de32832d7c9f2ef7145338a818670481cd23575ac949b4ba7f24d37428aace, (-0x2c03b64028a8f596107382ee15c9d962fe6c16067550d204fce7143b7b43bd0e), 0x18b9bb917c502c32345a4f61c76025c54aba40a94aefe59ba15c92fbcc4047e0, 0xd7dc1f1a415d03a87c3f9ed218324bf7856f34ce40986a0d1e96ca4904dfb79f, 0x0, 0x0);
    (false, 0xb216a9f4d0a5bc6488d3892b42743906e509e1405d20403288425948a7aed9e3, 0x2ea5611817ff2d97008ee38e7bc73b82ccc3e4f5cb6bf603eb6de15136110917, 0x5ef9736173fbf18c5099bdb6c7ba1b61de0c016e1293b1aace1e439e0e010b9, 0x21aee55680f77691be459e575c435847588bc7f970b7a58732d5144a3849bbe9, 0xd82893caa57a9b8987205ba67d4c2a065485e781800ca86dd4c232a2f5610f99, 0x0, 0x0);
    (false, 0x19fa2e1b51131db1a61ed5a48cf4e0ade06d265ee6e52a2b40345ef9014fae4b, 0x26249ecb73ef61e294abfb709bb8fdc87fa74f07bf8039d0a1dc7447c841903, (-0x209db5628d6315689d409797a23863989ac5c7c62a88f724a5262b59f0869f0c), 0x1a9a90969be282038ccb79dcd2d171157b2f2997667b369a18cd6b4294e2412b, 0x5b8144f8be5cb570718b8881d4b2a2a048b6eb21caf9b31f956fd96d0414fb87, 0x0, 0x0);
    (false, 0x3900b2d2a1d5f9306a322d2e04b2c1e648c59097cf4a27195afb69a33add2e6c, 0x223ef44a5e061d215f8f3b465b24601e6ea0374f0ec810cc660edd71af1ad1b7, 0x38bfc693f3a0abc5c9f4aff2c2358ca09ca596c651cdcae681397d6a93428f02, 0x36f314ecbdbee943ec1664a2c34802fb2c5e2dcb9dce121187d550361acb57a3, 0x7da0172ffff8f70ebe3a8d9dfa4acdf9d5e08636b84374d0a1ad0ceb2bdd456a, 0x0, 0x0);
    (false, 0xaa0ec216e6e4a9917f00dcbea3904480f7e8994e6e68ad3cc3f616b8cc84b64a, 0x20873d0fffc6caa4812fb3402ec87ef525f7cde834e1eef18c89a7cd18631ad6, (-0x4a7fc7ba20c706f63a9b859f56484369309836f34c40b2a9b8b46af3284e4f25), 0xf9a72702b7e9e915239ce9960b502c48399a2a1d13a3a8c0697f416a7c3521d, 0x105d3b49cef053c0b8d8058f23176972b0b38e7a3293572ee511a220e90312133, 0x0, 0x0);
    (false, 0x3291d93e2d714bf16d490b4be403f5e367f3d1f3e3cc769a5ddedce1652ca14d, 0x25c92113a8aa73493d600a6b91184a5f8d6f6d298914643d68f1079d8d8a1e66, (-0xd1d6e99f3b79a558d19ea5635d556ef709847f8257d6d2386f56d38cb60baed), (-0x1d6e1cc699d0c6ac7e61fdb5f80d4c66e40240188452848ae4d6a6f97e640c5c), 0x535cf6a98a6b710348d26fd9483a2f91e0731cd81f07d0244af3e595fae2a45a, 0x0, 0x0);
    (false, 0x1881382508dbda4b3b7440eafa796f7e87cc96f6ed6be689f483a330dd19c429, 0x1e9763ccca6a2fe45389273e2a39f9f50395b07f303e043fea46a4256b9863d, (-0x4760b206d529090be001b83281503f922c323157a5d0646a2ff6b243410ffc37), 0x2f3002e04fbf8542dd4ece839cfd6f7935ce091e3d42093b4687b743eba7afd, 0x57a48592b28e3a49aa085c09dc2c34c79a1fe08062a707654f20e5d58d0df39e, 0x0, 0x0);
    (false, 0x575bd581fd6032c60972fa00f942998a351ab86795180db2d37f83e2f4028f6d, 0x149068ede5a057ae88a3a9d54435a94ff3d2c07ab3795e54496e4f90fc9a7a84, (-0x40e70371c5b75a278f210670759686f50e6680984bda7d1ef5aa24f7b1989c79), 0x1116f855be90012284d189ef3d7bcf2801111c3fcfe3ccb08cf4afe0b9e549ff, 0x79f659b9d161285f2124711fa5e9f3f67702c918dc2177df518e344afdaa68d0, 0x0, 0x0);
    (false, 0xfdefd101b1eb562fac5d8aaac86f9512c3ab7f17e8dc20abc6ec34881028857e, 0x513aaf6972989a16b44d6c2228b82acfd030d6add9caab476ac7dcb334a937a3, (-0x48cee9bc855821ef828942114d889462a80b5844bcd7ceed555153e03dfa5d83), 0x620985481b6fd096b49e8992b002d8407593d18b8a1f77f1a4208221a4837f57, 0x10aa3d9e9a617834da718dd3ca7272f3eab779e47801bf93a432dbe1caa385e7d, 0x0, 0x0);
    (false, 0x19b456ab71d5def4e55230b703098a17e8f147e36f4b39fe9fd5a4803a7a3a05f, 0xb3292fe6ee07fbc22ac37a255f53dadca9ec480f17eb5cb6f56e6726b0a302c0, 0x2221e00ae09893d97ad4d0c381aeee7ca078d0d6018e2396f0f54e109e3a7dd6, 0xc3b70a4e3ed78ae5bae2b1eb42aff1b4989ce26caaa79b59e19b8f3e6c6e3fd1, 0x1d135a37bbc8e75aa4d59507c7d967b6ca6bf30a901277a71eac1aa75bdfbb4b6, 0x0, 0x0);
    (false, 0x1043e71b515f7cd3a4b22203fd1737a440fe75c34a88b84b40ab5f80a0196c323, 0xc16571a6502fff1a621894b263b7fb147c0cf2b2bac618c0ea00932bfaa77961, (-0xfa37c65fd54cce00a3fc10a9063f5ad9981e03ffe222733272f6320bdc9bc5), 0x2bb9e334a770021f10619f9202963ec2a76b7f24d2a3de00c47d0d287912ed41, 0x10eee9e3a7f434b32bd9893452e037ecfbead0e61f61d9b4c2a50b071cbe0414e, 0x0, 0x0);
    (false, 0x1f6118e9a31ba4fd189dc445c50eb3e17e6b00a1a8c6ac04999bfd381c6ec08, 0x11931a16ed793fbb9387c8023412e469ebee360b7c0c9f80003b0731030241e, 0x4d4dd1d81cdb680a3f070543de3c64c9d77aa36f0bfc7c2984f29526dab0250, (-0x24a69c5651db6fc23f5a9ac79fca93ba10872c52bdcd628ef6fd6ecc3d052d99), 0x13b252ea5a1b66543090b29865d023c746eab44ad0f7570b67091f8d0b391633, 0x0, 0x0);
    (false, 0x160aeee48f10612c889368b97a276f624d9b1640b7438430991983937dfa6e4de, 0xa7401da24f0d34ebe53625a9ecdc508ad72f3b6d0a71eabaadb7b53e376bc332, 0xdd943c5b7f68a51e867ee37447584bce902b95e75dedcd3f8cc37ee8d6105422, 0x16d9c1ad3a2547593225937c209fd93f4179d554058c03e865aa3330335b66c55, 0x24b4bf6bf75aaf52f7b9962947e8233f06a5abac6b5aae50a5322a78d01f90269, 0x0, 0x0);
    (false, 0x857ddb84498595e2ac1bfa5d27aa92606a4c27f921761b469c77a80d8f4b1194, 0x1e0bcb903d767e0b7a17e9db21f261ab5416409409490b3fdd050fa0ef2aa2b7, (-0x30201a02731bdae4544d99cf12f3d8d901a0fc6f6b1ad0be9fa462a82bfd3ea6), 0x23272d7b9287abfba8f0d59c13fe87317cb150195ae76926c072bc48b5d9e29e, 0xadc5a94f2ebeb434cb59b7e42831a6b1731ff1e94d0457c1169c8fe387052438, 0x0, 0x0);
    (false, 0x5ff5a9fc44ba18c1b262d90dedb7f5216a94411191043ae1590d4a657bfb9980, 0x20b4b9640d100be15fb5e97cea92a3bb31fe07e18c6284898ef26b07036f55dc, 0x252ecea7589929bd44941554ad767d8d0c72bda658bee8c568251bc04b967d9, 0x64fc458216f83d04a166c08bae9fb42c508a94788f052e6f10a176c8350725f8, 0x919d0d1f7d0e4d3a25c7f8f1cb3476b5bfbf5f2b2ae99b3f6c802e19ea84d308, 0x0, 0x0);
    (false, 0x12594b6d3a7d946fd86108b7c27535ded8b22156899c36a6eac61d2062fda76b, 0x12dd08dce397b37a676b46c2c450a98ce92cedbeadabde2703650861d5eaec9c, (-0x3893709d0bf638d1b9e142c5c882e7a955eaeac27e053389cfdf648b0683e0be), (-0x41bb1ac4f01edd5906de1a2114603af502f31d62abf8a8734323851103297d32), 0x28ad5c3e86248e7455f4911924d6c97db1024e64c9762e4856ee186dfcba0829, 0x0, 0x0);
    (false, 0x3170bad60339ec0997720762f32a411cc0668edc68ae06df6ccb28b652e03a6, 0xb3fbc1c0b2965ce81424086e56aa10afaa05094f96a977d96e70505bdc4e10, (-0x29eba081e7e64c17917cdc3ef89b9eeda4e872a3c178daff26c2abc6d119ee39), (-0x399bf625ce2421560973444955333e41b6c2fef4167d91633f535db1dfa42cf7), 0xdf91f46ab375ea6d67af8968ed5ee1d90dd882db0781aef5e676b62c0116cfe, 0x0, 0x0);
    (false, 0x2fcf953a93b0c4c7bcea7200f8506b752f913edba845c8051b00ece86c92f6b5, 0xda984a1fe2620e750e2d30785553f139dd912bbd5f5bd6dcb66ae58e24a57d77, 0x4b8adbf17a822e6b3bda9c9a9cd554c676835e0a1cd1f98e107120fb996d7705, (-0x1044b7baa55c3179a38b049f452122ec5b76893b230a28aec4c5c5b97c85cb0b), 0x105256bd9d9f3b97318b2db0fcd85bb20abf78d2bfbbf948e1febac85b1a4dc28, 0x0, 0x0);
    (false, 0xec5b6d5a2d87c41cdc4c862a91f36b59ed37dde0adc9c8039ad2dc44ecc1a757, 0xf07cdfb150d9bff4e22959e26c15172a7f9faba22e8a9a588a41a5fc8467f59c, 0x9de070397d4c9b5a3f00e5bd2801f901c916545075ff2e49d2365b4ca48e2a22, 0xdbb8309adf020e55d92663501102c311084bd35f107408c67f5bf66d0506138f, 0x2144ceab271dc3d52b7eecc038148eb350c68ea8fa29ba605f9ec95f8ca91d87f, 0x0, 0x0);
    (false, 0xd584d72c162a4804f81b09201aabfb7b380481d5dccb2cd4b5dfc4b9190cee43, 0x381e3ac60660adba2e328d7ede67ca2389f8cb566bcda293efd792c6d58cc79a, (-0x5103c401c9ee30c49439750d6458df0107f1f193d91067338e392651bdde2418), 0x2c7527732435183d36272742b25d71773127b2f3e71a86c3bbe21f80bb041a80, 0xf0b602b580eed37b0b00733c0cd0447b8d7db1e07f2207b966930a621442d7dc, 0x0, 0x0);
    (false, 0x42f957f11437e6186f63c63c15d38895b1f57890a08393fa246d904b3dfedb9d, 0xe967da56fb76fa1d18ab33d7f4e2d5b9ce0f98cacf38e6f610b962a5ee8806e9, 0x12d95a2818cddfc44d7b5fc05854a4f581b4ae90c5210b10d81b40b2e6d722aa, (-0x2709f8adfae0b98aa8b60ee4b10245fef355fa45b8e4836ad3df10fb9cd49c3b), 0x13625f640da2731669a2ff33bf67057ffa0c63d69fc06bf2990ba905bbdcceeaa, 0x0, 0x0);
    (false, 0xa85be5b27cfc13f5395a5d596f91fce813de009c0003696a9561df65976b86, 0xc0365d0dd8aa9f9e2f610d60df986f96da798e8144f800d825b2ccb969966a, 0xed80840e55d2c74e3ca32ec53f29e09e77e300ab3e6e3ec0b2629c4314c0bfdb, 0xbc9f0f97b157d268a01919c2f504ffbc52fe7e5ce72b61b5cfef60f9339c3a5, 0x1b2234eda3e9a64cc2a1fb3accea38582a2cdcb8eceb4e6c54813aa88fcbdbcf, 0x0, 0x0);
    (false, 0x1f0a17dd87efc170061f62383fa55e01bde8ba308216ad6d402af0c760df30fd, 0x31c2c666bf76aa6b07313b914284b0e8182a5effca287a345e5563ed1784242b, (-0x2c689540b475437e3d9106b313a79d3f3cbdc6dbfd05692e70eb3c8041b7093e), (-0x2ba72f139fb109e6a8e5d606e44c07108ee0008df444b8642ee0af5cf29d57b1), 0x426007b89a23ea3941f2cfecf83ec1dfeef9130ea6b0a4f0dd60fe546526aa0a, 0x0, 0x0);
    (false, 0xaf98283f3da3c92c7d9eecfd24b9890f1ba9d0fa2164479f64e2a407808ebd26, 0x64c8ffefc0fcf329d46fe5fffdb55593b03e37d89ae3bfdbd6c21074f2fb5a3c, (-0x252bf6f567b15fac7a96d84a8549af8036406f1ec85072cb61ed4959e96cdff3), (-0x413e1953ac3cb550d22152ef7ed2cab0138f20387a6517fd31d17e3986a1ff48), 0x5be16a02cb6c6678884f5d60c2be75b7efdc170f1fb3c58430d28625da264f3d, 0x0, 0x0);
    (false, 0x7e4dd1a4a1fafb3f1398026f2321fcf45c0b3f1ffdb5e3c6fa00ddd1e26e2a62, 0x821a583ed32723c3e8c7c14eb9fbb657e04e29529e4166e41afd69b6ffc39842, 0x4dbc4120a414d78c4092bd8785c0215a77f624eb6ce03802eee2fb63c45d3451, 0x5eb73952b98c9d9eefaf45efd563a75874a98429968f10fcf0be0ebf5c2b4fa4, 0x133bd8fe77f272bd057dda358f985ec1dac25c94b531053835a690d0ed7e6d680, 0x0, 0x0);
    (false, 0x5cd579ee575cdb780ce56e0aadb890db88af0aa52872b6781aacf28e8038444f, 0xa624a31383b82648703f8890365a3a5474d11873bee4cd9157b13244b164a9e9, 0x741f7c01635a66d6d4d0e6f111829c1b6ad25d6ea724e7c585969302a8380244, 0x4f4cd10c05b1c955e09bce7c883bf98d554b10edabc501c7a8df3cb6431f3cf6, 0x149b479241d6c83a8cd4f8e47314296651fb432fd85e1387eb790ac322a69e77d, 0x0, 0x0);
    (false, 0x38d0a0758b27bed4720a1636ba8130a42a224ca1f133c9dd63102b141709432c, 0x11e08a0f04e32dabe237d5e47a42d50e2703748ac2cfcafbdd8e568144ac6636, (-0x3f9cd019c9aac07c15b8047b6ff31df5276c5aa29cbfcc8bf9b2943e9a80ee3), (-0x70978377a80ab91fe132215d4f5fc7541e27f794c3d423bc0afce70905606e7), 0x3dca8655199c1a624d85a9c7a654c2631028bfb5194994429f8d30def52fb9bd, 0x0, 0x0);
    (false, 0xf9eea0eb718cf5aa03f883b657ec838d508b703a36b53dd56de33836dfc2d2c, 0x550d38e4f7847cd639ba1cf231e25e4bae7e9fc0b02eadddb34d886cafc0d937, 0x8044734193e577a4851c5b217dbe06be83e9e09d388aae537fdcf9580cc23301, 0x58dd72c4846d9d3899804f7841d43f56e87ab0460dab477313ebea870c9a68, 0x1001cb2036ab1890f2e5c16be0bc571e863b4f256752b7df76b55f838b5a1b18f, 0x0, 0x0);
    (false, 0x2019dabc424796a871413375bde85a9ea8e3684dc485716392e2fc722840eb08, 0x1da5ef8887e70ab0cb6be458033ec33f787cfaeb46503d2116208b9f1817e4b2, 0xb1e6c1960a48fa58a04f4bb1061963d325b344f0ebc5a10520e68b1e00f43dee, 0x50b36fbdb7e9880ab40f127a962349bcbc61d1fb68766bacf7bf3c14263fd5b0, 0xa8840516834801e36705702258f8ea332dcd8193807e8ebeeae743edda280411, 0x0, 0x0);
    (false, 0xd725d8ef0759d5913bd2c54527d371418d14fa10d37233ff5fa50b19ff6465f7, 0x3aad1ed88a00554efd9554dc0c3f885a093f8ce6b2a5fe091cb1d2385d12bf67, 0x2ed7caf4185d1387c1f32c28c4a8a50ee0669b8a25ac88c6535bb5b3235f2447, 0xe75f7d29b64b005c873a37d8366ae901864010f928d967acb00ee88cce6929f0, 0x14b72026b0aa5b8c553178c66f4dff9effc14b73bebec85e94f5e6fd0b9d7311b, 0x0, 0x0);
    (false, 0xf7828534c7e90513d20c5751d6a87faf8cc18e9a5c38cc45bb296024dac096e6, 0xaa30212302d56500c778b0dbab1377a26e06f39c8ee4d6d08bdd579a2ca2a6b9, (-0x96b30badd95166d91b2b6b6a598181da9b601ba0878ca2966face95420f6293), 0x2c471fd3b632affa60f4b61ae623b06474d8f051c6eeb188c0117d837efe3e8d, 0xb54d0378862adf0e912da22f2d282687ecf8067332e274b47561bf1059322763, 0x0, 0x0);
    (false, 0x164759cb378046ecca9cdf6e06dcbfee7813ceae7dfe4d42f4ecd8aa5f639f0c1, 0xd3913f0c4edc19505e7a3e98a2a8f7a2bfaf7b2f69fddcb54be847410a65c191, (-0x18284e880ba86cdfa9850499bb627401ba10873c71a016e50b9132a55d443540), 0x7221270a7c51022756eaf667af5482d4f92bb862c763c285edc0fdcdcd60b4e9, 0x1580219b3f685d3f403d60637666b8763d0657d427210c22fc25e410c1b666752, 0x0, 0x0);
    (false, 0x65cfd68ae83f1f489176c976384cc284b3ade1320db37d90f5d10ad8adc10355, 0xd52da51a50b0ea09cca9442f1daffbed49f3642f67e93c54c24b4285e511d3d4, 0xa67e046f23411bf48d911b57107540b14eb24809702b946860e46e124c083495, 0xbae95d5042ab09f59a08c0d57b94f9973631c84e59e6303d0ef43ea6f6991c9, 0x1a4df7fdedff56651e1b35e3a0a3ae31804f7add48f46379897db90b6307af4c1, 0x0, 0x0);
    (false, 0x15c6650fb75e6383228931331f938f22da1893acb1108605bdb98d7fcef17fb3b, 0x84a668a252f7133c1a3ad12078e891761ecfbb5b84683edf366caac7fb23cd78, 0x38b18b367c120691974bf7d04ec593fc2b35c108f064d317ca5763593ab95b80, 0x156226834065bd418dbb1aee9494b497eb7ad1a7f13af07b2e450b5c3864b6c90, 0x1f3b884ddf422da2f7bbce6f5b9539d64ba3d2d2594acaccc26766a3c9eb9b32f, 0x0, 0x0);
    (false, 0xcee1f0fb4b6efe8e4a45168a34384b90b015de581d65825278be4c8d94ff3f0e, 0x3dd294e5895f0e493f3e80794764218dcedf125a1983a8bcd16b386611c74a31, 0x11b1ca030abf447f120623c607019f7e705707e8c8ebdc2f1b67333d2272fcce, 0x69cd16ba2464366eba48dbafe6580e0db2456da0477f449e5c75064db15c5793, 0x11f1f688abd6b6ee7834fe96b8d2f3ec19e1607504535f2a30452cd2c3511867b, 0x0, 0x0);
    (true, 0x5e5019988e265ffe7c09ff1031bbddb4f4e4bfeb3d141ff76a8d7bdca6b69650, 0x203817df6a52653f1a397fbe9ceb1c8aee6ca3534c5f8761e0b59ef48afe30b5, 0x31247124eda2b716ce43588e54a32bd3e4f97c74332d7093737b16fb6fea2b8, 0x5e10a09e42871f8888ceeda09a62284246fdec8ed8d39d5880bd096da8575803, 0x886c65ef7d2ad30a5644be338dfef79f0865a9616207afe5edd9e8ed89f8ffe1, (-0x262525425e176b14a038922ea54d0f61f543571f3c95ec49001a5b916f95d6a6), 0x2);
    (true, 0x23a7988bcdc0d59f0e7fda4ba296adc18632b8e8bd1b6b18b4138cc43dbdcc73, 0x2352bf7160dcf6223797550e464f2261539779bd98ffd5abfd59c2cf24a48340, 0x7800ae462336217f33f3274f1dfaae1d43ce76fabc2c0265b3b20f5f261422cc, 0x2fff20f5112f1c66e3bcb1245096e55b3bfe53f6946e3e89e72556216325dec8, 0xb54b97060ec3d039fe2e9808a7f9f9a79161f3535e9a77ffb7241c6f5f34642c, (-0x47dc0921bfd073880dd8a9b0a5226ed5341b381e5cf6d2998c6d41b11dd6c5f2), 0x3);
    (true, 0x499a06222875ac31a3c7d80063c59e1ef4b7ae78b6cfd8416bb87a78713f4b23, 0x384dc4f7ba04ac1b14d89a2d072f694c39fa59607565ce686db8221f69747225, (-0x21a52538c878a797dbf81c5398ae92573b12cd4df6c4d915cb5e7aa5bf3da6d6), (-0x1bcd0a6e48bfa4d6a8f73067973d0a72f30c6dfa015544128777707fc857d196), 0x7686258759fcb6ab725a856bb82c1d83eb454e16ceb8afd974aeaf9d85be12d6, (-0x512382130be42552565877c142919acf040ccd9d7473cc35983efbfe32be1acb), 0x2);
    (true, 0x186aac766d6d15493e7c6736277ffc3cf8b5f063e77e0a377af34fa3609e49c8f, 0xc78e357ff17e8c06584a068fb0cd032ad411be62fa06617e000a7e3f18aa7de9, 0x2a3ad3f2d6aff793ab8c84be39b0a06facd0dadc99918770fbc5ccb083d0bce0, 0xc50a2c9f7e71439e1808a5a316bfa7945668f03d56c6d82b718aaf44d5bed34d, 0x1a0cdc54c39658ea559630d3af15c038a16803c98f1ac89acd4a111eee34d83e8, (-0x197d37a5ed53d59b0c0ff657a0c3eeb58b02c8949871244f681080e20e1d3f7c), 0x1);
    (true, 0x1a8585cade34e8e85a850d5fc7e075e7dd05987d5acbc5af1fdf6f8279473467, 0x3311145f998f1a689c60b99a89436e5d5a5540f5e304ff6354ed97c08bac6867, 0x20b4cae2bacf9e6daa4e8d5ee3da3c95ff3bde2ae6720925137cf73bbe786810, (-0xc20afb17114efdc6d372b22a2dc86a719ffb0fb05c955081e1e4fe1d410a8c2), 0x5ba3af4456057894c84b03939ffb2bad97d9a5a8ebad25c9e7b439d49ac916e4, (-0x2157c082dfd07d9d1dbf7234cb33e82aec1823496d78c2321b66d4dd4c027469), 0x1);
    (true, 0x3abac80fe74a3fa3ebcadb4d03f4fe7c51084d98ca55b0ba8211aff41250b857, 0x8a8cda04b24c11348628dd911ddca570089fa7db3fde2a76356d05a30bf6f12, 0x433dc199f235f1bf7d921dd6db7051044c4026f1b8fcb5afae68f07e50cf78e9, 0xcf71c67ef65d52dadc581948681239cf816b8215e23a5ef9dfa88971e2ea0e57, 0xa4533322d1b25e13345c2e8e919aa90b9a89b30ee06b0ce6851b690a75e49578, (-0x2c0a42fe1370a1f5f5be459b9a84e0783a359a23cce0a6115f3860bda543d40c), 0x1);
    (true, 0x182d67b256676566f225a0c7479ae3bb258dcc69c0ab7299405b2211c602bd3d8, 0xe91165363beaaae010461177176bac1336f0f83a2d447a7b35b7c24a17aafda0, 0x6a07312673da8d86afa2225fc0e2ea33161314b46b2044b0ac84b52534a07c8a, 0x1382ad3e3e5ed4dbb08450af765653d611e367813dc10b6ead8ff1d123515a469, 0x2461998ff8c702fe92a5885024089e77c688b432f87ab1527956dde22a11a520d, (-0x2c258bb88e4896ef3fb062973cc30fdcb4d475bfe5cba5cf526a5eff9a76a6bc), 0x1);
    (true, 0xf1a5791c24ac84effedc8cbffee1050dcbf43830b164f4cb1072fd8b8a825494, 0xb697dd8c3b9c8a91d4b2aaed8236228f1edf2530a5828eadcdfc69b7ab02db13, 0x24d2212d34ca36c1d49315cbb66c9f2f85775ef3c43b0b7daa474a3cc76739d, 0x8b37f9db5969268170a215cecfee4cfa9692c2b4fca0c72ec248869da47d0d, 0x8fba7af8e93ff63f80ffd1354fb3e6f9d36806b064e89b1bece82f6b2214be53, (-0x58d0f3ab3bccfe373f4903ce41f90ac067eb7c591ad9ce8612f48bfba7e70f8b), 0x3);
    (true, 0x6982363c50d73e4f50f75a46f993c227d4accf9cb1d0bbfb1d0d58a362cc1f27, 0x35298801d42a3ff20f65a92e34a772d737e60b35616a20365cccde91e6ccdf14, 0xa4ebc92b414b94f794ad98c4776f12d992567e999d444df540fea10ce929f1be, 0xbaa3697b75b5652fea57af11746d0b795f642e5b41622f940cdf5dba3dc50d33, 0x1043cd026f0043c763d956961cc5f45085fc10e5c9ce72d7fa07ab1eb0f655c71, (-0x531f3191ad6b2abf053f7e8c6fd992122d15a16079b77a013b989d5c1f32d52a), 0x3);
    (true, 0x78cdee9224f4087ac506d88a12cf912b017b30e9a1f6e7dd78202475fb7384b7, 0x3f64fcfccc430cd086ad6a0a8edd1d9efe13fbc29f29c62ecba8c9f5be6c6fd9, 0x334f079aeb0510ef74a8a313cde6ca47c9dda75dc32a49e550dc7d9ec470910f, 0x4bac4664ed59a9e81a085cf4782c352ba0823599e789d06b2c8b0301bfbe80a6, 0xe0183ad69560fcad7134ab51881bbb2732bf79b3582178f91b3bea1d50aa5984, (-0x58ce4399fc5536d2c096d5dd5cadfd0bb2f919e9cfb1da3e5c1c1ff32a358c24), 0x3);
    (true, 0x5519a052edbce467fa308e46e01fb82acb550c6905b2344079af7721d7c507f9, 0x94077f2187308bd90ae5b64d32746a86a164ded5be398189002c08d47d1c2bd, 0x6bc4e9b4cb5ec7ee5dd8d18fda48193b7e6b0796670b8835c9c4cc0dcd7b534, 0xb425e627e61001c9e6b5f05ef3e80b43924d7558cc957814d31aeddf8e9040cd, 0xf2506b899eadd84d258e991fed9845231ed705aade09551af24f6ff435aafbb8, (-0x4eff727ec8754f97144255592b90924a3d38a6d6d8f07efbb37b73d981a214c9), 0x2);
    (true, 0x33e1bd9d90fff3b86bcd867e079c42a5fc6fee91204d7322749d5ca9e0fbe45c, 0x47a965ff3aaa7a778b874ad5c5ebe52219a2a0fd9c1fc988310e7bbbb9435dc, 0xd1f83ca60f0cb5db76ef64c6cea49a32051271cc5ee8d9060957db266615b6f4, 0x12351c4bacc9d3000709624cb29da9319b19b7043d2b11c3c8763f765e3dd3df9, 0xd4d950e742f9833d99642deec243875a1e4df513290be0353333df5261b3fbda, (-0x434e69a97132b18864b1b8ba2075f0fe3dd2fc02dc0dcde3ad94e40fa87985bf), 0x2);
    (true, 0x6f3bd4ef888f1fe5a80c0ff36d09578a813939a77c4ce586826a71a52a10cc44, 0x40c1ffce450cdc868281f337d91894309cba087e8e6c9d933c38e3e4a950160b, (-0x1b130f3a93d24f9b9fe5aa9df64d32be9a63e2de7e5dee89f16c852c62c2ac4b), 0x3c94f24d70586297246cf48106114d6fc980c7c47ab6e734b199359150d8298d, 0x902f7f70d29edb835896a37a2760fc082b6174c8214def2d6342f23dde64b50b, (-0x8517b54ad23b06e3b80aa957a6bd7bd8e3c8a1a57bb938a32a5fc4fa27ca242), 0x0);
    (true, 0x2db8cb267272ea89b67a11918a9b25f1a8721a0683129cce22805638f5c267bc, 0x1591c5c2d3f063ad2260db6c2272fd11964191170e023a7e09d5050cb8dd76e4, (-0x874f8bbd9b7079e1990d68ab19ba529ca7dbbb8439bf18ee2f4fefeba60df8e), (-0x33b04c6d8e1296544ea8875b30fdd85be3bfbd89632bd9e7609fd5fc52f780db), 0x2cd949152a9835d86162154d9464fd943db412dd3b5bb67b7f895efbd4297a79, (-0x2cd53ba2e404117db6f9d4e197bb5ad45debb7a4d2d06a3ae8f9717baf89212d), 0x2);
    (true, 0xd9663cf92b7f40d25eefb95a88d7b8e435d7b4e9d11b0b13364e42eb96a5a749, 0xd7a0363d4e59236540f5379c61410b603f12c50b99dd86b77ca503a34e5f9b33, (-0x427f29af84219a2c8ecaaf9660a19bb98b27d60984d161008ecdd0dd916adf07), 0x11cbebd0987fd9725c546a339122007df36fb32481fb5e002f2a16b93dc6cfc7, 0x68547aad4cbd267de5111d21a852a6521429a4826411ae096a81f1c6de5b3b1c, (-0x4720f0b08f53a6c25afcb81a8b9fb6e5557c56f8d56a2f5a87066c69c17884fa), 0x2);
    (true, 0xbd96940a1604d93adeeb708f2bfd304b5d8cef3f9833e2d100e943081ca9287a, 0xa649ca66dd1a1dfeebb1749d040a74c56ae3901d2b8c09b41acf864a877d5e65, 0x2990f146187a1caecc2f96c81d98ed541f8f0991cdbcbf52581325b2df2560ca, 0x4a0289cf5f0cc99882fb0095f080db83e1c2f3ba2f5b73ef4e849d1ac6434b5a, 0x10b37ef089cda65cd91587f3accb0bf2ab4a021684c5f8655626657ae56aa8dfe, (-0x3fa565d8eacc4cb11162e8fdd3bdbc3762522532ac430e676f2130a1d06edc6d), 0x2);
    (true, 0x7e503404417f33756a048eab97029d4ee5a34410594374b9a18a46fc1f178bc9, 0x12d06b0cfebea90678f3bccb67e287dcb0a58d552f0ca52b44bf12c64292438d, (-0x2eb188e121f72f59885c15ab463c5524ad72e39d5272b750c47cfea3503e2694), (-0x2bcc02966a525676246f9392d7553003ea5dd2c2bca85f80d0f670c1512598d8), 0xd68a0c15193219421cbf2d62d642ee88f5c581b2f90faf7230503d07034832dd, (-0x18c3eff76704411147b53570f155286b37ba8c9c807565726a97e33bd5539a52), 0x1);
    (true, 0x1084882368cb02b73bd723dcb7cfd346184dfb65aeb70dd2273521d2141c52d86, 0xc73e3c5a73b1d4fd328e469ce3b67a3082a54c0cd839e2e81f8575cc2864f244, 0x192640909ab8b2f420e5457c50330db73720636e1a1ab997adcb112cc1d8dda4, 0x73d6aeacbf49ef010c938a5445ca95f71e32782a07881e93e7d0f74a36327109, 0x1281ae0e2e73598b62329c68450f86c79a3e8eaa93735d620e8146ecef1bf55c8, (-0x594c99a738ee770be24181d7a7ec3e76679a365965f996d015f8ac3a3d73a563), 0x3);
    (true, 0x5bfb3dfe31843d174e9230b2bfdaeb75d3c2909a7c6fdde48882d29eeb9ce522, 0xcd6a02c7de1aa5c96de4620c17cd159daeae6a45f84a75aa452d4dad049095b, 0x5c12954f7a7e110dd83642d2fae72f47ca85346faa0e295a2bd61ac38912358b, 0x130d1a89745b34491085d6e398c0dc9c2e9157e8f299ca43f4f47c162f93b2e7a, 0xfc193e50825082a977afabd7f11aafc0c02f8da85721d358ab2fcdeb2e8e1834, (-0x2e6dbd9cdcdab8fe00503cbad1932af23efd2a3dc949c2e9e6f863113fb4ec3a), 0x2);
    (true, 0x2c2efe4cb9b1bc53c83d5b8c42005b1ce4fa8f3da766045b7bfa40614016d456, 0x1a311f6087f10f3046c153f1e41de2429252b17c006523282334c92423ee6e2e, (-0x467cedca644e96223e9af94c4249c9189a990f03201142d15e9ad83456b180ab), (-0x4c683fcbf0ac7b4589400d9c7fb43330f0a9f3bb4d57d1dde2aa2b96cd660865), 0x1b682874f114763393ab3808ee34f0198f66c3255c15ce1d5834c6296d44078e, (-0x54a7e1e14fbc27c39cdb1aa8931a4f553e8e580268de5c428930504ab8c655f9), 0x3);
    (true, 0x29dee5868bc5c470de51b3ee19fcbe6799f3ed26850c0404791be5c3c8a125ef, 0x378973b9b4ced9f5c01bc58362f8010fa3572f228247398d4fb0afc1675fdcb, 0x2bedc79b6492e221fa434b8585b4b238cfb248b893302e794e8295c02e50e5bd, 0x49aba65e41c01906a386a52766007510d30f02987405442b1e4c450d38bd6386, 0x98f1973b129ed2cc5c6abc9836b200a6ba4a56546ca3a45062b04c5b621c037f, (-0x1dc4e547061c59e7b83293f7445cfda75e3282d7ec595a7593aa211a94e82745), 0x1);
    (true, 0xe7c98745ad196fc9e7467edaa3998acc2414e6863f1abbed1aebdab2c4d6a6d8, 0x82ff2b61e7003bd47c6005fbb551debf2c4c45abaeb5efe0e1f1732835281551, (-0x2289f31f8c6c294218e2451008381288cd3d8e726f5bd4d0e43ab4dd0f8721d7), 0x2a257d31eacd05a4c014409dba02352721b83d69706d07f54ed4ec8a5121e777, 0xbf01c4c98bfdfa5a1bf1c689e426c571b021e3cfeea4d5b1c1adab82ba3d5f80, (-0x375fd632b957dada48560fe50fed70f8de29f650fd3da2c464099db6d96a956a), 0x1);
    (true, 0x11406d4d43f8a5060d8c92f86a2b5d57571ae5cf4bdc61db54cdb730c9a66d419, 0x50ef86cac791e710848ec282e3112d908ac2618b9d8833b24d6ae602870d44ed, (-0x1fa35104d85ef3adb029d5761073e394360f037999791c34111f3626fd797e24), 0x46a20ce36146b941ab408d322a1101f6e9c735efff5f386c999919f2b194445e, 0x145090d930ecb59e9758e2f76cb4c9d5cba29b1a56ba18e4f120d68248f06b312, (-0x375dc1467dffbcc1bdab37c3d86584e6d76ec786823998dd3e945992da2a418a), 0x2);
    (true, 0x4a2ee2c5964ee2cff6f0e3dbc035382162885b59fdd982c2c1ec1ec956714b1a, 0x379f6951b1918ea72970824e59f6682bf71961fa187c276aedc2c8576b6ea082, 0xa8ff1aef10dc2e0717953131bc1f3e6ceceaf44eb955270158e06ce056efd741, 0x48faa596aa3b89dc9703f6630215a3de57c236a02dd00127bd99ffee2a735399, 0xe3083f7ef7ebbb6ca53e7280996b65fdeca2db0f14c8968c876264bc8f620cf3, (-0x393ea0d5c0e28aaa5d3b17ed6c4e29c71a64b3f0137257852ec5f130d8e19628), 0x2);
    (true, 0xbdeda42a8278a2f5b4f6a61395f7c58207da7289cfd8fd01f9cd06a2aad20d58, 0x87f4f8c167f87432097e959b08d99d0f83c6c28755c93b5cbacedbb4a2abc15e, (-0x64a7c9f6107a7cc86307a6bb8015924032be033eab15c040409a6b99a94cf4e), 0x67bca8c8d7c353b3e7364393856cf518734e846364234663b902d5f748d9b20a, 0xdf953e74476f68ddbcb199b4a73636bfae26432d5811d8242dee4479dc88dea2, (-0x4aa09068ea149b3603cd9da440b1f6cf7dd64249196a5a2dacb8b8928c71b643), 0x3);
    (true, 0x9502f7cf82465f816b98be31a8a81189525c79fbcb87f02829d688dbd41a5e37, 0xd50f3b10c4bb850646610a2d94ee8f45aafccf6d64af0a0ce355b783577549c5, 0xbb31776bde1f516c4780d3b786d8a11d3cbde14ef2c901967adaf16c7a2afa3d, 0x821511e3b0bb58fa56197b5e68cd8eb343f380739ae383f92b3aeb8c12fcc675, 0x1b454ab64ec29953ec1b3f58141cf0a6399298daed5c4a0e0420c7f9a7a45dd26, (-0x2a354366e4f10df5464539ecb11b800227d7570a4eb5d4dad729f5198820f880), 0x1);
    (true, 0x10f64b1974ef0c557e77d609321c30efeba624e4b045d52507f1c56e6c335730a, 0xdf20f2d1555df3a3548c583f16327f7836d242b10b61a35e2ef4799ab35d1c87, 0x17d4bd57af2f8b19bc2189530ee6a96c42a8d9ff9ba87843b2cfcfa41e264cf4, 0x87eeb29c49c92ba2f7e9e97a0fd0fea9eea95e8bc0c247b319ee0f7a89be3d6e, 0x1525364329a9b0c6125869f0a6abad5e5998084aa8cc24b1b2165cdf2e032b452, (-0x4f78c37ecb764594d6159cae93bac7afd13425065ef1eeeb5f30a570ea3905b7), 0x3);
    (true, 0xc180c7e401a9a211c74962f0b39adf9eee3698f858a9a29bca8b8692e177f365, 0xd9a2a734d4a0a3bbfc7559d233a164e71c1003fddee87f3c02c2b13837375474, 0x188fd8214ccb4355ab752cde32be324755b138d85084d95cdcfdd7d487142a6, 0x32cc91ea0dd429b9523fd068280769ea4984555c758d61d00c923d39d3d7346f, 0xacac24cee2fefb60d6a36e6906152845fcabb6b3138ac62b9e78a7abf360ef66, (-0x348812902f0f061045741ff8d26ce7b8c972899c4b49c23db43851fe3f043416), 0x1);
    (true, 0x1d0e8947465cd25e46c7683ec7c9f34e990dd9975984ebb1f3327d8e720309a3, 0x1737d43fb9e4991c2d6a676ac26364b334ac748eef914bb52bf579ab08676c5, (-0x3aee5f4ccba4ab9e3931555aea3331d9a656fa6a748921d3db37e02fc710c50), (-0x2ca30db378a5550004cf38841ad930637a37d94d076ec9f681607c0431e8a8a8), 0x94c3e5502f5aef0fcb4e9655acb743fbaaba8c102728cc602110d33bbae25fc7, (-0x2527efe88f6aa1dcfcf4b29cdac2567c746ee522b01fdb8ac91faf8540e51d95), 0x1);
    (true, 0xa425f115535327e4a12a20f7464072fca777e4968b0e7bcc442c920beb3e431a, 0x41fe6bbfa0c976c98362ac67a14359fcc03b62d0325a5cc65b81643997e7332e, (-0x3f13ccc654000f828fbfc9bbad653264d4f018e6ffb613b2a57acf49672a1df3), (-0xe49f9b813484a69576fd6b7e565fbaf32e6081b4befbcf32d0b03e4de4cd503), 0x6fd04d90dd7ddf41961975aa7ac8188e19c28dea7493aa9a45d8f4e24daacb5d, (-0x532223419c8eed35f5ccb771d0219fbdc2b5058b1614e299e9c74e6b40e72857), 0x2);
    (true, 0x1672c90ce5e889a3b981ad5a69a8b693e972ec279fdd3d63d1b1b0c0f5ca28c4e, 0xaa041f912936644877624116990942393e8f61a48322a3d3a0cc6d2617d5967a, 0x6926cdb2163d416b546788c37ffbcb91f20a768261a318d3f747e8d8203e8c9, 0xd9de3f828bafd49fe00efeaf4f9d225752828f2685a2a3e2ecbe6b288ff430c6, 0x1acf91ff1cce0cda7ee6b786d5b4a3884b5585fe39cef37cef761a603b5a938fe, (-0x1173d99691ce5c4cfa2af66907fbc16f448d8d2ae8f2beabde961ea34c1014ee), 0x0);
    (true, 0x16489e671173fe43df9847970115c3001e4aaaf5840ec9623bda59bccca9aa3c, 0xd498fbcb040ce39b8ce6b84f94ddb44a1091b29b9c9f4bc0df999fe9d60d43, 0x649d2d1e2f9ab53de7b384104a0783eac44dea730b17eb8078361a2e6f0f9403, 0xb6d4fcd56140309989ff994e0a4983f08befbf0505f97dfac538ab6362b2cb9f, 0xa9c661b40980db00a9523cc192471e6599f81586d0e636593fb2ea70f3fa7124, (-0x25c8ad0ffffe0a3daa3b21341063a5e6e6c0dec71db17f3bb0c8700fdb305a2d), 0x2);
    (true, 0xc209bcd2e29728874aedd72021e9553ab5dd2befa833c7ab1e8a7b8411e3ce2, 0x493b35da8a7d73b43942263a3bf1e85332f91d131a09de1c6422cf0d64d12e84, 0x3b568bfa9340ed2a33afb926f12d13d12fdca9640b365ff71c21bbf094702cde, (-0x1572ea95d9775a085fd88ab0940fd5f0b575b4653e421361e0b3295b1a36c9eb), 0xba00e6631a23e7d52e01d15f2c19babe5777fad28ed26de206924af44c10cb65, (-0x53404c5d39072c513a436f4ccdc67bf44371a959fba537833c0d78bb3420b3a5), 0x2);
    (true, 0xa9310228ef8300510a14fd804aff4b2dc55d31ba22825c80f7e4a390daaf1438, 0x289001cb90653125bc1f2d49d2a6d6d38fefc275e71c1be3a7afd6f6ef455a77, 0x385e8e619c272cdb8536922a1e2ae5a6e4d35d2e4ee4c4e7a4803cfc40371713, 0xa261cc408aa9569663cf50b185f9df911e55718702c05dbd7d5da4a48aa31715, 0x1271de79c10fcd6feeedb9a883f56d40928fedef9f51b891a2d2e38158a135453, (-0x3d85c5c4ef9d526cc4c2c40d01764c23de1876542c86d46056970aca046a00a4), 0x2);
    (true, 0x105d11bc25c519133ea430a560cd85173fc904ab868612ea12a21f3b98ace97e, 0x2c1b131e206d529512ab4934069c1adf26e3876a7b2490169c40eb9f4cb6408, (-0x2aa6944b5fa1e291e785bebd0992dcc32ef019ee5b5d1c9f40bf9d9c44edcf3f), (-0x1654697787d654cb1b3976ca9d5454d5cc17cba113240b6941f1f7434c8bb4eb), 0x226fd948ef7a80007b47b44081d54e328b1e53a8325cacd5d94517973029e9f4, (-0x22b1e2ebcd941be9dfe722f030945cd9dc22e2a8a538119df0740ad6c8d708e5), 0x1);
    (true, 0x1fd5442d67d7aefbfbefe5cb16f8956a79028b512098a38684cc7175ae41a532, 0xd15d92908dd69012953d9db09b444a8baeb5fe2d87a05be899dd00881e21974, 0x3612c54824b603b7c45d082b37226ce167a7fff4065128e3162045017e01d1e9, 0xa654c5d422f2bcab8570c67d0e20fb27edf629bb251ff9a8166fbaf91de0401, 0x5bcb5f9c6347e912cb8fd6809bdb0279f36f09edea4d332dba6c3e0dc1280962, (-0x4e565e01b3e7df9b00446f168b52eb0cbff2af045a21878899cee715df7ad243), 0x3);
    (true, 0xdc783d5cc6a15fb38505f469c511697977b3fd4200017da67969b66f2768de0, 0xa0cf1731c85dd839d22ae35d8f77e9baea0ed5e43feb3d137ab15ca07cda3a0, 0x8c6c5daf9f2cc721a27384877acbf7a19cad2b8da71941166b29f320e0a5ba45, 0x1354e4db914f9e2d152796b0504805c233ae7a812b57629ae21c32f056e8450e, 0x589cabe2229d98e5909dd13ab319418a85796fda6fe4a1263cc2d5d2b726549d, (-0x4f3a14ebd3c54416762f4c9b3a2c6fb3d59026e4998e4352b66a593cb09f5ce4), 0x3);
    (true, 0x15fd501d795b16c149a97374592ba9a1c0e5371a508601d4d42b983cc3e3b178, 0x1d8af6b2df94e6bea9a267a0a1f1f36abe648c43a6af3cfed3d3347feb6c0ea9, (-0x1572764e51f3481e55f83aeb0ad2045f260d4669657a8c680cd12e697f63fa61), (-0x5debb7b69e65a5a4c86ba321ac91a09dd113ae0cae9f28a26d7ef49397afe1d), 0x4915c7374f241b45638b8befa41cdf8bf4d6cd171ffa1530e62102a6c25000d8, (-0x164f8fa1a7555523c49235c08f4c17b423573c8a5dad91dfeae538268dd92ac5), 0x1);
    (true, 0xfec1b4e106ef6fa075a9daeadbdeab7a01ea8c4b3b3a21613ea148044bec507e, 0xc67ca0541b28130dd4ca1e89bc8fdcc3cb0fd55fb7b34f9332ffe8a79328ea10, 0x37f0864610489c4cd89fc7bd4be8f963b40cd3e3c624517650a03d6ed7819e4e, 0x63e6ced992acdec412791f89c18d6acf1c93703f7d0a5d18377b6ac06e0d39e5, 0x16569037be8d041d71785a5542aa2b9539c0b48506eae1dab88ab805b4a23a3d1, (-0x2429c1821170efc21bdddb2292e13f72a9afaa9215312ea5e4c51410210aa6f), 0x0);
    (true, 0x6d092660f17aafaa12a5dd5bd5441e45712f528dc9e42de0e3944db631c4b96d, 0x8a945daa68e2f8649b8b2484afcbb6ebf09e8071440d0ae93b3c15a2cc617afe, 0x7a29502ef18a89487c64f05e8994d91b473588a38c1a5912a15b622df303fdea, 0x464dd8d4e3b4fae72034d7f34d56c81d28a4d8604439ed35da9bc2c1d8d6bb34, 0x16634deb7d45b1c8ab5089d17a18d17dcdacbe209f6e8a4eb92c4138cbdece853, (-0x43755c7e7b15b0f8183a6cfe3869075570536adb827ecd85fae24d66970cccbb), 0x2);
    (true, 0x25f36d048fe20437135a73a5ebcb1f786a0557cd08cd4d03d2f5a4ab122e7480, 0x488da2a0f010c84cdb647172b0cdfb144e9258dcc8ff10a438fe859762feff2, 0xcf7c4d6dc086ed088e862b184415adbf92175e4af2fa8154227e76c7e66c0031, 0xf06edb3099931334c6b9ebd698ae2f42cea71550f12d8b0d3871ec08475aac29, 0x921c217f18b9e7ad7dbb941dde1c7b64fd2efd2013df446029e368325aec01ec, (-0x59ee77e7cb5d0018451ac8e61cb71e20102cf77d5b90b0e1319ab4a39682da2e), 0x3);
    (true, 0x9e6900d741fcd365befa89876bffbdc6278afbed9aea2ef1f8c360425b923dac, 0x7c92eb2355016ed9ae1db0f06e85a372683dc7e3cecfa584ba35884308b61a09, 0x125d61c10de7b50e53f4b75904f9471ec97222d0a171d254c12e7811a8711e6, 0x4106b7e1eeafd947b1a6b52652d07e888419b1b93348d0ff90a24923d2de52f8, 0xa74375c995ae7959c937f90233605bf112d244ca71f25d1fb7b96829914d9250, (-0x1edda27502adbbf0b8cef11f84f024cf41036c6abfd997407939916925d13148), 0x1);
    (true, 0x2bc08689484b6b8c09151f5fe368917539c66b834a4964f6dc782c6f92011d2a, 0x47863e86a121afba90b807f4d1c34d583718e8daea7c3d1b4c0c7bbc683f2d79, (-0x405618e50a6be9e7b518456824db47a02cd84159386366aba20276b04f6b58fe), (-0x1205ac87bc8170a27e79df7b29c1d09861f745ae90b8601e561218b5f3bb4176), 0x4fd49bace8da2c2ce1fdf387ac72abe660fbe06d4a5bff4e72090fe4911f47b6, (-0x3489f6dfcd7825b1a9e75164fa3a2184badc200b2380f9bb9c0fe859092ce7b5), 0x2);
    (true, 0x59932f27ce65087aa66a2eb8b0bc32c13afb384092b6fb570b08d408356f989f, 0x257a21f63a412f5fcd48db50cada85cf5152f20145c784db585dda6bca7f1163, (-0x209cfd081c58b10833e08e6b70d176eee82d939c0ec876bd55c680b870716e8a), (-0x38e2aa811169430d98b175d2fb4d98e05255a5aee0acf9d2996334d6e05e621d), 0x473513981da973fdce817e78faa26ae751923a64779effd292b29146da52f9a1, (-0x46fbdf3924a5f3d926a8be5e1fe8552bd682c537262d613e7cdced9ca8c807f4), 0x2);
    (true, 0x83ba2ead5bf673973d34c9a5371aae0eb2b78699684b0c65ad82a564e73780ee, 0x573f4b0bc2d4684ed7efc24aa03204008d853626174bd3c69582431acd988d64, (-0x37a23e54b10861246454aba1bc34d6bd380315e867c00e45a0854d7f6d90a112), 0x226bbb1cb7934b0a1703151b372551e4a389c7be82ac7c492f4768b2eabb037, 0x5f84403eb6dfb6c4ae6c96d733973c1810369f06f2599d759d90e3c9ba81ca16, (-0x3997b792c21f7f406a29a3bee5fa3a6bb31f84eebb5ac374d6382f6f8c564dc4), 0x2);
    (true, 0x8e730ec4e47643fa529025f0440cecf55a5513121469f7f697f901919a001505, 0x2cb2cfae260fd80e8e39287f05ead7e0114199ceb6feb58b3c2654cd4fdd8e8e, (-0x34a4390b09364fd03efd59164abc95eaec78e0c3b8b23542f0a6814d4ed0aab1), (-0x312854a1e683bb2cf2528340d8e74a859b68cd352fea418da80e2675c5eb1c9a), 0x7d6a8756b6da3428abad910844e3f2ef12eed0a31df59e28d4e138616cbc38df, (-0x459a38074fcd2a0d3d45cd534eec0e3a418fd221b4154a32335c73e72910a17d), 0x2);
    (true, 0x2ebe64a8ff1250a85fbedf7c0f6ecff06048707bd93502579507516bae2c133d, 0x702fbdc4db9342303d577d583e41db92c77aafac562f6b17798a462ab10af86, (-0xdc7e1f811e01344a5967f11961e34cf08377839c1db4df0c9dddefc023c9986), 0x2b01938be8f81575adab5365e61aa8461defcf0149e5bfcd66204720cd212c66, 0x6d5ae87aab06b182c8e75c2b8d255104b885b7ceb31ded51701692537d382228, (-0x2f36ec6b2ff04b5267c250f511213c4aa24822131b026781906f3bb1c5f5ef6d), 0x1);
    (true, 0xcc473ec88e0e8c595f6915aac7648b1a57ab3e030c59c3659f7995b4c9626f4e, 0x43fd08a39e1a906ece52e476bf9b48b609163ef7d712817e0b9807e218d64b92, (-0x3561225c0dba85462bf8a1a26630ebf2d71e9d327d12a13c2c1d1b0d92350355), 0xb90939d0a1d57939c34628f712c324e4d79123a69325e77e6be65cfe6aa6dbd, 0xdbff1e25c0e3bad466b2278d3226f16df8b0ac3edbe648638ebc791a540a4db1, (-0x61817830cc6b17c415545378e740f217f503d73867c826a2cfbf5b9fe41ecf9), 0x0);
    (true, 0x5db0d016a6d745c74ea8767f2ab7bacb1651c1200282190de168023894386d73, 0x6473e9a464e15f712ee6c911cd36f3b31187bdd1b8304aab1e603dd4a68d3e95, 0x1d94124fe5b902753a5b88ec913c55dd9de4ceb20f5e9a8beb001ffe6f0d837a, 0xfd4fb1b07331e58b205a71b1140283bca5890b2a9754e9fa3ba54a8ee2b859, 0xc6590078f703ae34c14e7449391780d22e33d24d6b849ce081f1b10c854bb427, (-0x20d4d8fb833d8353290498f2e6f5b152176dd012de107b106badc270dcf9ce55), 0x1);
    (true, 0x8626932caa541e44fe794639ec2911af867a359179c9ac076f6440b42393691f, 0x2be53dd2141a8f984f463166c98e14784e00eccba9dc80da35495c62d5817647, 0x83211b118e2a0e997221d77b5a8a10c194db44a4e1f7c3750b7526600abdce99, 0xdef5cd7fb87a964d4cf7de0d44764a7b4e5ffd41beefee0ccde9973cf0370bc7, 0x126794eb0903cf9c37b46e7192897473d280f166f22c3aa7b652706a2f2e67b62, (-0x25bb345455897a410c23634d64adfe2ca2656cda36f7562d5124a3bac92a275d), 0x1);
    (true, 0x800e2f618f9801c29d5e522e559c9cb3711a268db06d8d03120301636f70659d, 0xae0e141f9739fee7bf8ed67b2627a9ec3201140be472a17981713dbc3e4ab132, 0x25b2292ccacfe654ea9c18fc4642fabee9b4e8c2fa306ba27605ed6164561f36, 0x475c6594a5297e7b5364cdb2029fa1eda24f57e8cce00bd592b535ed89fbd415, 0x11557c87e81740e89524fc31b7a2b89801ddff587cff0d3c299737ac2b6f9a53d, (-0x7dfb1ca74cad0771ed617fc050572f55fbdc225b139c56bb083f426a1d25db4), 0x0);
    (true, 0x8ff5b03aff23e96fd3c1b0eb2ad45681b149c052b484ee9b95ae148b5a9c292b, 0xcc712f7467c12500640c57b8a3143d297deaaa394855021892d376e720cf4b48, 0x52ac07f2fb90f091a9300ee748788473a31d6cb9397dd80e59a90b4127d01606, 0x340d8eb6553b1cc0e5e6623513957ce445a2ed204d34440dacc8f5b8b621cecd, 0x15910b5ffa3e937a8e89ee04705a7840ed1b8eb032501cd04c0e29b762226f399, (-0x1d1aac4fd8e59c7cd2ce7777af6f4c285ef37b8eeb95ca5df8e151fbb133a633), 0x1);
    (true, 0x5e4bc45e4d58fdffe3a0f6580f45a88029b23df29bab37f8b62434653b424e10, 0x9592df9d765b28fc2382c96e707950b8c97d39592d0c37d8b667fcdbae425d84, 0x55ae978f27ac8b378012ca2a90bae903528932cd8a613764a7864a88c9e49b20, 0x51402df89dbf93677cd7b1a36e383b044083e09c726f1c858c3376b1f36af551, 0x13b6375d2080971aa24559b15116af65f28e862ab9cb0f9fd14ef8553b226b340, (-0x4a39ce01b2bff6a6746c52c54b02eb7b92a84e7eaebff7a56a4c99bbf9526eea), 0x3);
    (true, 0x368ae34c31dfa49bbd8209f825fbf10d186ed75727d2ffba56e211b2a37a15f7, 0xe9731e51baaa63b595a39dab4072791f3e1224ec3734463bbc1075081dba751a, (-0x256ee6360caf5d250baf3f7236c3148f4131c5226046848c64e778e03591a26), (-0x839ae6fc1a46e536dddae0897b8ea9242de932fe1e7e652bdc74099b889b946), 0x1174a7d1a36c3708916361e87e85b8eca63a2fb75bb3c21264c2f9e5e8b98b243, (-0x287d77c63c69502e38e78f608c1f80d4b2047d8bba9f4be4fe14ed971f57d6ea), 0x2);
    (true, 0xd978f104b689ea9432c255a6fab4fe23c79f46761c4460928925a862e206bb3, 0xcb3c8de09f083737a4f3553f6ce3cbab8139b7d69ee59a40b1894550d473ebdc, 0xa0d490a6106cd72ec58ef736572ee12f8d213993f15fd2ad573bee9fa01009c7, (-0xeadc4b3af057ca8d2cfd6b09bb2d7df6db4395ac8bf82fcb8d422499bbd24ed), 0x18809b3a42850cb2c927717d3b652d416b24681ba5d39b4a983bc850b5f4ccbb5, (-0x22275179142aef34008cfc0371fe157b48b7847f30daa356f0e40362022362bf), 0x1);
    (true, 0x409a6863df3e50b215301a8fc264e11d97ae94878400f7be2bd221d4fd685a17, 0x47985433a6c29e15d59c6d7bd14de4c7d0b8af1da4c839034e652182be2c3b7, 0x8e0c7744d33bdcc79c78a5a421881e3128ac01a767472684077d48812cd5fa6f, 0x18f11219d6e45e79a9938b3d96db866ae5029169e517ceade3151b0869dfc78af, 0x12922777ca9f75ca8c630a02bcce7e9971dc3214cf361c0207e3ab284d3e23599, (-0x11995fa41bd8a97d5f42256003a261564609e96ceec26afdb81a351a8d85872b), 0x1);
    (true, 0x98d342341c11848b49d894393c92b6d1d9b9797d2baa87b25eee5297e4d6f7b7, 0x69d555103c3198b922f976d643a1763caa7e5f133e46a02938474aa1130903bc, (-0x3cc06540fb771f8893d7c2a819fdc51e154eaf37be22fc1afb6044a4b063850d), (-0x4a16a72977d8db2800aeb49c3e7156d12b15239758dbf9a3aa0748201709341), 0x3d6f43af587ba2d0dcb4a1ef5a592111b8e446390785e0afd7da6262116935f1, (-0x56b1f41f41c6ba5fcc552b1e1df4051e87e82646d48f51fd3a0101dbc44e7988), 0x3);
    (true, 0xb8482a2e9a8b2e4803d4fe858c2accc67d4f2c19310a40f4bda576201fdf7dc0, 0xe78ed843b94650844e4c48b5a5d9630dc4d2a9b8217d46833c4835c589b833cb, 0x525e032ea011da5c0a562c622962f68b60bd5bc9545c316453e44dadb0dc6c32, 0x5cdc073c0557ee1b8532b8b3f33e94da4fd7ed7b6b9621e9d874ff3025a9bbd6, 0x1af7043f2318c7d6a02f284fdf7e818d2837b15a0b0353867ba8813e0d854bb80, (-0x59374a329c618350274268a7a3b549f1002b911bc17d7ec1fa28094cebaa16fc), 0x3);
    (true, 0x348c79223f3ff2cef79d0b2db506ee28c3bcef8514c93357d4597ce29937c5fe, 0xf84cca87acccb7c7e6f39b09a0d73da476ae76171e1e558ed3d5d0455feceec, (-0x3ed2a6da9ef9be345383ed1cb2d47a73dde0a604f0bcefd7cd0975899cfb7620), (-0x1352f887dc553bf37d3a8b54f77190b2bff2e76266fd61a638fd416b0592564b), 0x512be5a579c3cd80b8a18e66af4e596720e063641b1742a19144163246fb92c6, (-0x2d206dcf585ca7439823e49f6cda72487aa9b155e15dc53c9388aeb61b987ff8), 0x1);
    (true, 0x5fed0a4746ad9cfe91b8ddaa237e400e4288569357793e9e6ab922ee66ee0db7, 0xef920da3afea693c074f221442346080b6ec03e8e316f776394ea955798e9dd, 0xa68f770691048255c5865fc9a37007224621ecffb5dccd763d992202133c27a6, 0x12f64a513a1edc4cd9f3bdd50cddef4a5f0daf317dd293f6e15d16382fffd9b95, 0x10d67be04d99a35bfc1f541fc4dda1614041cfb81cc4e36e5da8627d45d5ec925, (-0x384b8b960bbfee6edbc48d2c91abceae7d418768136baf3fd379ed8b0f51f79f), 0x1);
    (true, 0x1d8d8e4011e32d15869426b3ebd6075dd839ea4113cea4b4ff627d5adc11962f5, 0xebab57433bccce3e5d0ad1c97108f8d94190036a6cc515e7c7ccc67140a468b7, (-0x44740aa25cc4c52ffc348257f8442bd5f3a84014fd32ca962447afcb87ff60a2), 0x1991789e14321bb524992dd0f4561e6f2d10b9b3cb63550520061e8e12a08427, 0x12acdab4b0a56ca1d6dd0913b8b849504875acb41d70dc64a66455523e4843e70, (-0x2904d11fa97dcceb5d9e699ed483a9c966d7e234ab92b1ac868308d42d9b7bc7), 0x2);
    (true, 0x41d9d47ed3b2232f6c38dc5dbc5dc3e38b074ab02180bef482a2304a26e0a22, 0x24b2a6a00cd9ef6491e3e362ae6474f60b0ff5af1b2bf8ead3b193329add6e, (-0x1e762db1e171e186bf3b6e0ced14aeaa5abf94d6a80c07e58a23b595df3537ae), (-0x2d49de7b0e283fd8b3cf651107d6f4e451432411872549d5af212341df7cff77), 0x1dc2ca6b04a2524c5accd95b6a14e0eebfaa550bf6e18e27d8c0b20553fccd46, (-0x4b3b8519f53be72e7d67a43944906fbc6eb1a88f1a9969da388d114612273398), 0x2);
    (true, 0xb0c1cfa6e51b8029250e9ab84eae93b63ddcadf81f98dfe8e253546b04b6d75d, 0x28c369f73bdcb4f6fbbd9213bb9f2d1a51ff35292c68c6bc98b39402d20072a6, 0xa006e2c7bfa403fa419b08bc6cea8f35d3504934547660ea58c6944c20062c2e, 0x169559802f4a949d0fdd31060d2a686722068cb5146c1411d49553d21bc55a704, 0x189514950d9bbbba53deccc94ca0a5d03d7d6c77c4e411fe3bee22487a7d5453e, (-0x4bc37f66f07673861aafb16666337997414849ee93b009353d30b9ebdde33c82), 0x3);
    (true, 0xb64224aa1255e600b8ba174cc9d4bb6381c6c0e00a63920365bf9626e884132d, 0x9f6bf373bafaba0e32241cc10077e761d0403bfa72d81dc89ab5a248e77a89be, (-0x90434ddf497637d0f0c3466851ec1bc0e520400cd76962357d02927ee5926e6), (-0x2845983aff2f9efd705f3b1458453949539c0a9f32076370720eb28890545e4a), 0x7215814c83f5f9ea46d6c303205611362210e093f36c10eb26641faf462795ce, (-0x254d3bd277bc779fc0fb846418e3a28607eff09680d7dbc809ec55bbe0f0b1f9), 0x2);
    (true, 0x1de0963c680ccdadc58e16371c7b71c0c245ec4817b930c1e3e9ec58f44c75b0, 0x16f75b9502e4f314e1e07f9485be32be63ebfe5bf3518c70215da76dd2faeacc, 0x35b8eb0a3b2c826645e9e5b973de0e9ed1104da79090a2d038a8eaaa88220abe, 0x2be73308a3e451fe3d755ba449e3a737288d4f96bd305f413b6b090328da7cbc, 0x5aed5a881b0792a0ad8de6b4b83058e50e8cafb3e76751c2b8d02cad0a37821a, (-0x58ce834054ba2522f7a47d5ec2636ee6ef36192fad92b852f3dfc58e45a1e796), 0x3);
    (true, 0xf5f64cb548124d55c0c5aa77de8ec6c9238d3702b0556491161c0d860cc53e9b, 0x802808c82ad256df3579efcc8b245c8d921b7fb4239a418b8a6f60567990175a, (-0x62a1ee5c7de555b5e35d1e4f2e81317205b10fde0e80ae11d38bbd4c8e8904c), (-0x97712b8b0ed9484a28f6f34e74d76b3320be0c237b881056619c34dc2e35a7f), 0xa805426ba9a50c01568be1b5eed6febedb2c34b231c158f95e626ed60f91358b, (-0x9680c7e6254a445353134b4886c52bc8e3c0887a1abcdf6885bafcf2668a66b), 0x1);
    (true, 0x1cb38d09464221af93a730c2599ac271bc82d9db3a43c9a0f0d6dd8fa042eaa9, 0xa6463b86d7bf9ad6cc469e3ba338c8262e9497fdc015f078b44f0defe650066, 0x40694a4901a9c7e5927a6e6e8066369773de97e0a1e4e92a422e548d70f3af33, 0x43898aac377b995db16e1778056da189b53e673b13d36f38c031fcf8f0ed16b5, 0x63c99690130c26978bc92304d3346bd2208f6572027c4b15be87cc0c9bcef404, (-0x5a6c0e3210ad4188f7316fd6d59ca20dd179d64838e7ae331bc4c53b604550c9), 0x3);
    (true, 0x1126baa36f2bcc24065e22dbd5686d59e5745229a02c9ff0fca7972d130595bc, 0x9d5229bc4f5e7c7f2593ee56b9d6e7d0d03a9728b3670506e33d5686af0d76, 0xd64a296cb0961ac922d313e07c8d43b51a15551852c5aeb5425d1f746fd02130, 0x1538c08766eaebd06f716f1eaa0ae0778e01cc4e3ad341d894309e68e911f0f6c, 0x907e954da0b8ec56133616d08df5775bee85a88a030149b71a147fbffff56470, (-0x18e6f0c1a50ee4e41e6956d850e6cb42e93b87cb55698b456453bf335dc96dc1), 0x1);
    (true, 0x150ae0cb7c310ee2f1f56147994295a4be1a1432bb042958e156a868f58a17c2, 0x8069452320f150973f388dfecacf5a38e43abba8365c89c56c2b1758ad691b38, (-0x2be595a8333880f2adbe9026256a2200f22145a2e3279a5f52896bbea0db564), (-0xe9b7f493241af8d87ea7e9f81ca2340d03289a10c5a4158f6186f1e05442e39), 0xd2f0778b0bce15381b429eb87f8ce95d22fc8ce64116474087456efd750efa6f, (-0x106c4af568e8447a8e2440b1fc5c9685ec88cb35f23b0a014d94619b42f9e588), 0x1);
    (true, 0x2b846439101798a9e91e99071eac3c24d268f1f9ee953a05f818c841b3cac2a, 0xc60a8e14a37f6d9fbca3ee27069b556b9dd94cda3c740a38c91872fbb5c2deb, (-0x484f07c09a3da06ac47437c682bd7ead99e81ec0eb6203fdb972498844696c79), (-0x7a0f76d9ecd3ec23fdf5a7199a60fd7fd2ecc0fa7609e5a5e5d4b5380628d33), 0x172599eafd931f45f85000f9f25bf1e8fe7a3f15635a50ea6ec85c7d51327831, (-0x41ad91458783575245e403e079103e3c1cc997ee0e9b852ad15928400027a4b9), 0x2);
    (true, 0xc78276fff92cdae1996dfe787b44d90a6a258a1dcf164c286f82ab25d8ec6123, 0x4caff62eeda9d34827ff49085bff1c076344c4f14c9aa7499aa1973b19d5a75c, 0xbd83cede278924aa54c23b53a4b17e9dc5015e8b544d465a3cb6a2ed4e8fbb5, 0x8c394198a44851c4d1a5cd848d9ce8e1f539e78e48ad68a845c6937a79115bb8, 0x1040db5aad2476b1be27589b343c925133d6feb3ffd8347fe4967178f15a0e892, (-0x314232a31ff0c4dbdc9e0533bd65e643dee5fd2fa9057dcb015e83210e6bc481), 0x2);
    (true, 0xe6ad31414efcca529832f3161c40015407b87f631a3ae91f1b09e5e260412e35, 0xfdb5bec034e7283d586c34db5abe5ad21c92e257e60c9d5cbc33fc07407eb5f7, 0x7926fee559a73689d6b50ef4d94603046e1851ee9054fd7b76660027e2419b2b, 0xbb3df37fda2f0f04eeccc8c1d1327a6ef3c6600970bda1023f3108b77276d4da, 0x1fa543a15773b4bee1e67bf236e5b95cece656b023f0691aa4473154851e6dbca, (-0x15b9f476386f2712b660a757004a6194f58bdaf159d6190a1a902e7a43ad2fde), 0x1);
    (true, 0x2d36ef66d93d5b00fe3de70153f6c63ac86181c7a195cdf81f90dd26a0e1179c, 0x8848bc1df20e73c98185bed184b74acb63575cc70fd8cc57af071307827a7117, 0x614c2813cf37bf15812d700f55a5efba50c72c1a1bf2dd195862f43cdf1f3e1a, 0xd17db5c12d72eb604a99c8c0c5a3124aeeac770ae8fcb50dfe35b47ad80a022, 0x12644d6d8ed86e3c1a5d6ebf5e0eea467c8d400f7fa12ea681406f2a57b8be5ef, (-0xdf1adb717a70162c551af5632e09d12a8447ba0f0f4036bd02dbf1840b46991), 0x0);
    (true, 0x1660c624beb81cf04a735a2c3d42b5fb5d24d984c8e47428dc6d720ab8cf12e56, 0xaa6709cc4511c2d4e6ac0b248122f32fc504b0ce75aa540a3b17f0d02ebe96d3, 0xa6bda94a9a3a6da0467d56198e529a4a7c70bd0ba71d5be219aec764d35d0fba, 0x1a823418e2901a5a08b3e6cc214c257013ee111cd758c76f8a88c867d96f6b52a, 0x2552bc9637bf0b40321161f007119a49b7306da493431a3dddbb269cd985cc020, (-0x54457c8ac8e48aa1069b17d6cac5ce22cc49c430915c5059791585973f237c13), 0x3);
    (true, 0x3d688eca51b3a9dfa669f3e477f5cbc08f00b8e81bcba7a85bd578e46b82aa8, 0x84d3340d89328740af094cfdb319babe543d9d4d16d96352b3bbd6aa96bfaf41, 0x1aee3cc75d3ced16a8bd07f951fd7d10a27760e253d763251dab8bc8b012d3a, (-0x267865d4d21f0884dbe5c74c979d729796f8ffd023f62d9ca292f01bd0153b21), 0x48a8d2ce59b7f2c86489761f81ecaad5c32f396e6edea619023c562a6d256143, (-0x5a3a192c12139fdd4a46545c57adf3d0f0d26f529db3e7f43fb3dfe4111c537c), 0x3);
    (true, 0x5329f36866bdc3450d8ea9da4129cbacb17d20b6284499cd42ea180a20ea8744, 0xd080950b3f73d365eac8da8a453e1a562eb1152474e1ac3caa404f0a4b2b4807, (-0x4076e28d238158591fb3b45fc285e507252a14038aa7f4e7ba6208f523a89458), (-0x46616752a3c5927412d819f3dad19235d7fb25ee24d8638735003d17de5fcd1d), 0x15c011e618b7dddc5d4ce394576d47f96b6bfb3dae5b2c48c32e16cb9f9ac193, (-0x415da2f0a3ecde7b8463a007781e0ce95fb0de42ce6f529883d1848480b88ac6), 0x2);
    (true, 0x36deea0a98c046d69f43c37592ba4cbeda42dc97065b0e534f7514aa19664b3, 0x3b4b5b4315fc8579d86485d2b75d914db7d1bf9a4520562bb579bc8045945, (-0x1c62c3d148722fb3f6006699f78f090c4859c5f7872fb8a4db48974d0d0b11c9), 0x5ce7d4032e997f316e8192f868543a3b211845497b86775f4a22add5193cd9e3, 0xcc3b4e333877bd62819b6076fe28c4c83aadafc97817470cd98c8eb3ac83391a, (-0x49160f95467d3e0eb45a700129d154e512cc86bc6d49809709806fcc5182bbfc), 0x2);
    (true, 0x10cdae9267afd826a39dacbebbb1a4f1c7e208abbd8997ec07f1e4a2481eaa3d0, 0x78918b003a63b2dffad848b42746b5c4e0a93c7aa2d840ae3b39d024cdbd89ca, 0xddc9e0cd769400502f808c5bdf5381ff7b96ccd9fbe739db2633a6560c2ef779, 0x17d81f21f0d88581031d78caee68feadd793f1b2f2298c8d5cd13b23397df8fdb, 0x1ec8ea9ac608dc9ff413bad790c695ddcb705687638340bd51683acf82cdbb531, (-0x3ba1c150a0a456bd5302c11d85927b191d5a232bf69a80a883ed9accadbd124c), 0x2);
    (true, 0xc9e78507e5c709b08cf91508ef879d82aa1a32e23aa23b1ab6a30359bc48fbda, 0xf5deea94437966fd290cebf2457ed7cf57e8e16feafbbb267e45958ef94d407f, 0x56f913eff3daecf25fff243324f931c56e3a319a99276eebe6fa31f445d29157, 0x69993cee333b63c57e1b02faf03a3ca705073ab07eb0927e46ef119e1336e8ae, 0x15b2650f251369acd042f5d303b66f8535bb86ce67a5e2d5fadba92b9fa541f5d, (-0x179e2e1016eff3fce8a13619b8fc4261b55b5b0f6a479a11aced95c63b80d368), 0x1);
    (true, 0x11851f6871b2c90bee64df9736373fceaebb169079a8ffbe8986d26eed49ed7a, 0x5a45f28087557def12015831f3d36620d73a6e87123a3c4838a6747d9668ba78, 0xa7028e7d376b390abc479edcbe23cbf1942bae0e837cb11b488a2efc4e7dd5e9, 0x13d4c36f3d355a731ac1a6c9052133ff7395b98acce0084a1884ce5e0fbb4, 0xfc1b70af4618963646a056fc4f5cbcb319caa4b0ae5ff8529a7210db89a7ae7a, (-0x38e35f4ce2337d89f0d32ad0892b18e765c37bbb2e16fd8e48d5208f4d1517fb), 0x2);
    (true, 0x1d75fce427ffc90a4d3ee0085712d04bb3bb387353746f6036fc1a3049580a37, 0xf87e80fc01ec85e80c149a8a79dc22b80fd5c52ae2617d60948a90cbc8ede538, 0x21313c30c89ee968533ae45914620fe405a47dd01780959bb4a5c792f9669fbe, (-0x2944b8914c34c9af14685614c9f9355fc6320e7abd51476307324fbbab34b3da), 0x139244293e774f5df8fe9054105d4c916f858292c2656cd9d0b12495ca57f83dd, (-0xb0f9f16392374af26c1bdb1795762c5349537975fe3b402649f6fc826f25fd9), 0x0);
    (true, 0x1712ba6d6f1591c1378677ebd59282a58cd28162fb3901cce90175f5f35da15d, 0xb237b83c8ddc9a40b7b7fe640dc066b0835d577e80aea821fbdc7f04da132b, (-0x152f771b6f023d81774a6cdd02ccdac7f14b0e56da48e3ac3e0a4b5cfeae86cd), 0x74f0e60816ddd3eaf502a9f21b1d61a8bfbbd190332feaa3491e9c8c46014f15, 0xc946cb46450e7bdf56431a930fa99112df2bb9f8ac359669892c8f9b1038579d, (-0x251ed692a3012b8e3a4c6b930e929ae432a72baca40f5fadb69a9a4fb0897c26), 0x1);
    (true, 0x1104db1050e7f303dabdc8e1884435a36b98184a6adde593d9de209c67f1ef1fb, 0x4c96f08ea8304e17d72bf14ce4b9e2b972ee854f00a9dfebf01bf55bb1f1732e, 0xd88f3dab997791a670e5b3010ddd5c9841630a352cb3707e04ab60441ed3318c, 0x1a3b0dc49916b644ce6f0b47b81dd72a8c8afaa00f3baf9cb0caca6fa754ccf04, 0x1feb812ced155caf326ad309f05b0a0422943db6f45bebe42887cc11e42b0bf6c, (-0x2592c87b087fa5253cab653426ff7a8b21056501def5d0ef0c267cf0afcfae50), 0x2);
    (true, 0x11d95d5c1753c8529fd7631a77dab74401c7652cb674d5e4d46228ad4d22d6bb, 0x26ea4b8245ccc86a08721a180a78e051003d885427f21fc2f97b80b01726c68a, (-0x254ffb37457e9544ff12fc224d7fdb9b5eaadd5212170f1e2c2e9ee1b2808c6f), 0x177a031e271e091da523c96b8c8e415fbe7359891344694be5d0fe229a27d95, 0x337ef35422bfe36345157b3c737ff5e84fce3fcd065760df3b911168ef935a95, (-0x48e6d090ef83cde77ff496938965aa190ab17e0fa279e1ac5bb7b76b56cc6597), 0x2);
    (true, 0x2b69b0200b8b6c169dc01a3de060ad9c5512f6568ee78c9bdac52f79d983d496, 0x2401052732a445ce26f97cd96d3adf4e250fa012ed8a6862da16f86690f2210, 0x64a693139629387a4e15dee0c23caef59197f35c50092361f2141ec88b8d88db, 0xdf13b4b6ab6ed4f8af9ac937ed61d282c5fb2fc35baaf770953d25358fd15fe8, 0xef9ff158e2a705c8b0c93f74fafe7f76ef010269e6cb3e6018df516a198161fd, (-0x21c33c96c4392c57d9ae2661a7965648d35e4d86150b654bffb813729794d7fb), 0x2);
    (true, 0x211ac1d675066327664d99109b54d90f24c05445e148d1586fcf69f9321d1e0a, 0x7390c56ae9606647bfde4c211832d9de35f8900680b48efacfe48b3ba67e2658, (-0x1f7ef20039e4a32b46992721785bc54f9e2318bbb14fdd2ff86605c7fd2e0c5b), (-0x8f9b7172d11b9b2aeff9b016c8105390a36eaf46ecb82de899c0657d3dcc89), 0x7bd94fff30da4409c27bc3fa4f93cea54f659dd65f56a24b428ecdd1fe3178e0, (-0x3d6db69b754ad5019aede2c9840570981433f3ccd73b63a1c460867330a61a6f), 0x2);
    (true, 0x3074416d5b27e52611280aa1bb490a0b95c297f0d8c78093bc9f1f91484b8ba, 0x5dc88b3a5f71bb381116c42054e0e74f15666d5b674259963ad38b4c1582ad, 0xc270a3cd24372d6d762716c8bc1cc97dbafd2eed0a6d030a5ca50652803e8d97, 0x2fd99ed4557dcb687e5fa871874729af0355690c2a8dbed3a87dbd4a48ac662b, 0x17bee5dd6b5a945b1430b33a7db53d26420f47c0e88cde9bde81917d482c1019, (-0x492987c20b77c7692a56ecd07c2f0c05e982ec31bcf48269610e05aa59371a2a), 0x3);
    (true, 0x5cffabc2fe3ec1dcbbae8aefc338b0cc68d49238720eda949e8988b966b04a4, 0x3440d78c1ceb7ffb99b7221805bdd0a2a9b0253bc562b192094898e0f6fcbbee, 0xff0d69db6e8ef98aba81a05a26afba93d594858e52808de0610d018f69de0cc, (-0x2194eed6c8e64fab62d479665d264be71879f8f2b491c8f24f696837ae6a8e31), 0x80b8e93202402fc97a591b050f1aeaf76d9e561a51b51a00373537c176f0710e, (-0x51c1da8370af3fa03cff26598ec7e40dd71b1951207431bd821726f29577e6e7), 0x3);
    (true, 0x4557229a36c751263013cb7c45474ce5612ae444b336804573a97e56faba003, 0x37a739b5fa2e05925de625a80b7fd6b611ded2214f5e96471ba4385529ff059, 0xca59cd75e2cca67aec2d10742c047bcf2dc31756f7fb7b969ed07bfc9cfcb4c, (-0x703f2abb0acd8831931631b415e36baad1e3801f16c91658d32531acf31cf32), 0x1aa1b13f257d3efb9ce468fe970904ff29c25b3d6ba1f22a0bbcaf153e12d75d, (-0x44c2c3b6737ff8ec4cff218e3533d6ada023367ed9e69207978543d2041584f5), 0x2);
    (true, 0x8254655884bf92dcd1ed41b0eeaa14fa7b42dbe410f0e5d34c4159a86f7072f3, 0x304e068ea6cbe3ca9368d4563584bf362f4c397f6cd6620a7804658cce36316e, (-0x3bc9399a5f4f57611eeb91fd4a516ffbb6169ee60656889da229b0e1365f9975), 0x23591ee6afe39c1385ab2ec569ef88de9627aef44479346e1028be2c1e8aa76a, 0x84bfd31629ffe311063e0f94c7085cec80e70bf3d7c0100d8d6c38ecd535c405, (-0x50266b7468114e6b2b65fd9bd6f12fd1cb469c3934208a6d9930f210b15418cc), 0x3);
    (true, 0x7f29c5215f57ed054ad9dd6c4d5e42650992849a71c80721b229a8466fa3263b, 0xb627e002e71729fdb4955fc04f7b1d674945ca378ab74f05556a9a490f049ef5, (-0x89ee8228c079f4c57502c084b3b1299616e3ec1754efe269096e09b5fbb213c), (-0x2dfbc5ef3462b1e49718c986fd8dd4e6d2efe33e5105f2ee41247f070c770605), 0x58c1240098f9d5bd2182a6cf21a50dc2789848c04a8ad8dce4bfe2faeb6e57d3, (-0x6fdd8602c5440b0851899348a76a0187f7b4763d6be9701dfb77715199f88c0), 0x1);
    (true, 0x304637185cca640c1d583188067d6a0702c1077aefdb9a78305cf79f5a93d52d, 0xbe95779403620ed7b6dbdcefc9d32e1f116a538dd709046a646914b1c1c3911d, 0x665cdf0525e88638cf74cd03fd57f5d4f33f86fe99033af1da1d41f4e0add4a2, (-0x549f1165286a0a478d1a2d7632e931949889b2a9a984c7eedf5d7fb1f475684), 0x15b49e26be2f95479f20bec1586fbee7193e4aaeda7a964b968addfeeb8a7c861, (-0x22bb31733c9fbcb831070b91c7e1ba91fc861e05f0eca96942fccf4c4e75b121), 0x1);
    (true, 0x220b9fa8e278b1d2cceb30bcfe7cf1ec1f4eaeabc49d7906cca4728f886f7ffd, 0x322c411a3ace8dceec1b933137bf5a9e9b3aad6212dad82889ae2e809c5957b, (-0x39df68f0da6d971436398cdd517ff2bfd5357b0e1da901a69d56348699f387e), 0x4a327b7e18c748e5462d10c839f5d3e03d2baa74bbab2c014be98cd9ed038e03, 0x6b76fd283065c82c9993a0d5cd23f50911fbd84c0e062fb6016bf98b096539b1, (-0x4ef7bf974ce52b2851cf6044c91a8901f3991c912d13c3c1e031210f8b420580), 0x2);
    (true, 0x28c71c6212fdda3cacc301cf0578873778ea4bb1862a930f69b89c90870f28f5, 0x3f2a4d74845da86df6971b78f881b33501909013dde343f8d36ee95927f9823, 0x3a5afb5368ad9a7510918db940e65f7add021cb26c95be785baf4630a6cafadf, 0x6458f2fc2502b570df2a5d9c6ceced824be56e485952ee10e340d5cddc02ff42, 0x8994b183371938d0f154e39be41d01c1864e8f31ac21eb58e8d03865bea2d2e8, (-0x8293ce40259272c6d6822faae091a19ba2bda139cb376cb537e163fdf4e719a), 0x0);
    (true, 0xb1981788a17b4c1c23ef955c9dd8f4ed36a5f64fb8cef61e0319e6006a7a49e5, 0x597bc484f3fed27a3d71c2909a1b1b5997f8df5b748119fc6193788cd8b9876f, 0x8efb502a4d3eeeb4fde2a3a5bf460818c424690d2bacf7e6cf2e3c796736d65f, 0xc5166dd1bc95b17aeb2874fb7939ba1668d210bcef9053cee9b9013bf51be343, 0x14fb7abd6fd56ee1669b7b0591aba5b3ddd5e80c80ded51d92fc6037a9c4fe1cc, (-0x1beb88b81c75ee18c6874a866e2923db19ec1320c25629bcc4e77b3f8c5f41e2), 0x0);
    (true, 0x2cfee062a3156d56ce143b683d9f2ad02d42ec74e480c2bfefcbc3e57117699, 0x20de2c79f1d21534a96115a0677fc00a424bc8df600ee5ba7bf17930e0674, (-0x26ce5822a19c90e0939ec8f927d8d8d73f4d1b3ba2e3cbacd52fd14083b4de95), (-0x3214c9d4ac03fa89053ba1caf709cae7bc053bf6eec06519efd3d7db595d1052), 0xf67d9e285e06d4096cae318ebd5a1e3f4bac2e7ea6d76121734f24c29d184f9a, (-0x27355c3f39aa444c794cd3e9919dde61313d3d63ab93255f3033c9fc8a9d91b5), 0x2) ].
Definition ru0_P256 : Z := 0x92e088642d3312c097d5943a147b76e7b494e0924f03d682e5350a345a27381d.
Definition ru1_P256 : Z := 0x1b6b65e0dba268d6bf72f99fba65e1bf30f126868605e87e9d516f57ef5dd84c.
Definition ru2_P256 : Z := 0x368fbbcd696676a0341535e2f5c2448c25b58fb7587e14be8d657ae5d2ec63f1.
Definition ra0_P256 : Z := 0xa969487079f1744798bf0de6fded091b66e9d328eb0645fe5d979d1339b7f47f.
Definition ra1_P256 : Z := 0xa4a08891884100c13323460107a8d28eede4387fa3e6e9bfebec9f6d72d0b5cc.
Definition ra2_P256 : Z := 0x4cde11cf86cb876cd59cf0115813c55af0ecd3cda667d98bb9a347a56aa74a6d.
Definition rb0_P256 : Z := 0xed31f3b7e1f57596f80c37f95ae2665123a4ae100c3fd1b79e0fd4fa86c24540.
Definition rb1_P256 : Z := 0xe2064682e0b89b67347009d7a074489e0ba61223ca75a16af0484bd16bc9ddc.
Definition rk0_P256 : Z := 0xb54dd7e7b3c6d0a5b88f1fc70fc041575064667efa00f666a5b5a8136ff23bde.
Definition rk1_P256 : Z := 0x759b7274162de6ac6cdb5fecb8d47bd233460222db18a83cead1a6b7978a0efb.
Definition rk2_P256 : Z := 0x61d763cfc564afb39f402166e2af02bc6793356799dc1af516eb515ea5ebe7e8.
Definition rk3_P256 : Z := 0x2b51f689f9b031b385dbb0ac16dc9643851bd89bdbac177efa0fd1d089fcebc5.
Definition rk4_P256 : Z := 0x10620031ae39ee808337c14aaed45666b4cdb8f83487d8992475fd83c9822a87.
Lemma root_P256_ok : rcheck (c_P P256) (c_B P256) mulp_P256 root_P256 ru0_P256 ru1_P256 ru2_P256 = true.
Proof. vm_cast_no_check (eq_refl true). Qed.
Lemma bezout_P256 : 
  ra0_P256 * ru0_P256 + rb0_P256 * c_B P256 = 1 + mulp_P256 rk0_P256 /\
  ra0_P256 * (ru1_P256 - 1) + ra1_P256 * ru0_P256 + rb1_P256 * c_B P256 - 3 * rb0_P256 = mulp_P256 rk1_P256 /\
  ra0_P256 * ru2_P256 + ra1_P256 * (ru1_P256 - 1) + ra2_P256 * ru0_P256 - 3 * rb1_P256 = mulp_P256 rk2_P256 /\
  ra1_P256 * ru2_P256 + ra2_P256 * (ru1_P256 - 1) + rb0_P256 = mulp_P256 rk3_P256 /\
  ra2_P256 * ru2_P256 + rb1_P256 = mulp_P256 rk4_P256.
Proof. split; [|split; [|split; [|split]]]; vm_compute; reflexivity. Qed.
