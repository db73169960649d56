(** * RootP224: x^3 - 3x + b has no root modulo p on the curve P224, step by step

    Written by tools/mkroot.py: x^p modulo x^3 - 3x + b by squarings, each with quotients by p
    (CurveRoot.rrun1), and the coefficients of 1 = A (x^p - x) + B (x^3 - 3x + b). *)
From Coq Require Import ZArith List Bool Lia.
From Verif Require Import Curves ChainP224 CurveRoot.
Import ListNotations.
Open Scope Z_scope.

Definition root_P224 : list rstep :=
  [ (true, 0x0, 0x0, 0x0, 0x0, 0x0, (-0x1), 0x0);
    (true, 0x0, 0x0, 0x168d01da6a7e5796c6956f6cdfdb18f2698658cf7920510fbc635618, 0x1, 0x0, (-0x7), 0x0);
    (true, 0x632ce55ee19aa33220b414cdbb98e557ae0a35be70ecfa7fcc66a01, 0x9c10c0f389fcbd436c12075b3e07cabff3e2a5e6dd12155c260017c5, 0x6343a29a2288e648ec5e3fd570b386402502d8aabb52778e9ef3059f, (-0x5f283696b531eb2efe2ea929c27a232d0fdb230cd6b52a3b48ba84a4), 0x10c604376314432b1cc009dad6de2508aee97242b1ff7321ec96e3b67, (-0x3037961d107ab6720b9117156137413e065acd03f487dc4a3366ab65), 0x1);
    (true, 0x14f70510c71b2f00df1f6db9a6bb1ac1b7bb4072e34d1f439ab90b81, 0x76da4427343193836640b94b2bcfd41001a682544992e7433a160db0, 0xa9a836720d35aeed26c53b6648d70d8329d9bc72bec398dcc0ac6cf5, 0x1c91c1720db69c68c1aee52bbbe6df01060d270c6ead8eb70462a052, 0x15108a021b76b962da839d31af5603316d353db018fcac686a7235f23, (-0x9e84f287c4567cc117bc81d588a7dd0045fa334fd8c034bbdf670f86), 0x3);
    (true, 0x98085e87138ca41503eb7d15e29ba03dddf93c28fb8682b5ce875d0e, 0x7fd171054f960728daa6681c62a0cceec010515fd39ddc9641f3e2de, 0xa14f0cc73a66035649d9f8c2b763f57155fec99c41559d88616a1c5e, 0x35d91c786dac21355197729c9718833bff33df35ed4b3406dc246ca1, 0x184acd790c9b0d2960ddee17dbcf95fc1e54b807bdfc80dc075445dba, (-0x1908b5004eacebe383f012aac1599524f56514e27339df2b7b25f933), 0x1);
    (true, 0x485d04cb572eda3041a1270d1b94e68bd12f49398b3e0044679fcb1, 0x923bf1f229992383c3c7555c421b483a857f97f96566216a1e99c7, (-0x794a7cf36f1e635ef02c5c38fcf676a48a15ef865906f960929d3e3c), (-0x2422121f0682f01f670408407533e1b72594a4a1ab79566a662af4e6), 0x12b542f8b52b171765938996580591f3a3832cacd25657cc51076960, (-0x90bf033e8b209efc4b590808d5195774dfb75931adeae180d3a22bd2), 0x2);
    (true, 0x1d164f39a16b259153ec0094cc2bfd36222bf3d0836be39786e67455, 0x11fa64fde531debde214ec01aabb9ea5d19685478416adbf37b2629, (-0x5f58b536cfb2b6309aa129583c678bde1406ad4fca44fed2d918dbe4), 0x5fd6782caf5b83bab705b7fadcb3c4da6effd1b77a303e0bfb242e44, 0xcf20664657ac93fc8dded8f1388bfea9a4485f2fc344111665811a0d, (-0x73ea318bd07a606397c37ba15dd182fef3c6c8320888538efb59213d), 0x2);
    (true, 0x19cc59724c16ebd60aef111b0dc87eb80068b227c155afda790eb1868, 0xe12e4d33cc2e5dce64d1ab5835fd401fec8019caf887de59ad2bb472, (-0x897a5cfc9cc294a8ea99949fff785f581de4afc3d87c9c25c5e8e18b), 0x536965f913f5655eee8b8e1a772cc402c3cc30133fde21c505fc9189, 0x15bd22b6df2d5a5201e4a3c822401384d3e113b29e6da39206b9820a8, (-0x9b9a1d91d87398a1c44d157d4f29b3b411cb396a0b7f7571b40ab87e), 0x2);
    (true, 0x180197a87bb8c2191b99974f49679bbf00a5c2e7da50e55bfc89790c8, 0xe9d27cbe170c21e3de59d6379066721f2933e9441dea32e459523875, 0xc868d62eac3aa5802aaa28b0c51ac0729ae6f7fa14da920ca306abb8, 0x164b933ec5b6ede7a95905822b12343c3a103681bce71919c49db935e, 0x27fa2672e3bd38655fcd7f0e213b7e85040b50bbb9423fc84c5a78ce6, (-0x685bf2a73f2da842de4af54e05d7e12fc01e4ec1bcb138de36cb4413), 0x2);
    (true, 0x6a8ae8a55715354b4649333e45968e492dd050eb48ba79198aec0a6b, 0x2bd92e71f02ab247960de6a7cd6e9bbf8ad88705298be5f3fd228b88, (-0xafdb19a8094c705fe9d35dc2bdd3ea6eecfa3515db288f1368847079), 0x6b9f4eaf067de98dcad4fb4511d23c42ed36d7d714f5eb1179f4b23, 0x565cfa94e07b74194d88996d7bc1364e1ea00ac856adc2d103fa2ff3, (-0x75169cde4ad65af4d8b87a15339affa04e211ddbb89d76d411a0c86a), 0x2);
    (true, 0x44f72bee2f4e7d0b642b919f0cf2e4eceac38279facf50c31510ecd5, 0xb84dc23be771323862f724d1708e754210081644e703e36c4524aea0, (-0x75cfdd78f54545eb3ab55d730d054dbbbbdf1dd3ed6a0340f09b0df4), (-0x1d8a1bf62c745de33622bab691916ff7f3486344969cc8b90b414661), 0xba265a239e00898391fa847e99b0a9a849472a4dcf588511c02cda99, (-0x2b2eea24cf27a27f5c30d0ad30e7115e2100d4bbf197acdfeae572cb), 0x1);
    (true, 0x5baaefc65152162122494fadc832ac9d9bf92a25606bb02a3f315495, 0x2d9bedc657bce77a0fd44e47767ddb96c05f277e1056f259bec95c52, 0x9980a63cdc1bc02e4bc3de53e643b1dd6046bb0d0b137cff6b9dca28, 0xa6082d8da318a67c55be099d86767e536674eb28d17f14b1cc49a93a, 0xec311ea972848e54bb86b45ee1891786af81645433632d2fb0ea93db, (-0x6aea027982be7d47dd8e27365f41020b2ac45cad24b7df745325d3e6), 0x2);
    (true, 0xd8a992d08280f2a79675ce481bf4d70e310e16ebc79b2187f4d14ca, 0x115e116dfa4a0f3595589d8f58319b3bbbfa0db1fca992d2b9d6193, (-0x906b51c7729e1b9b0dff9c6c6cfa319e740bc6d130a3e639d309c4), 0x23cb76f4420a44df217eaf161b3c6c899446f12a72012093a8e5f6b4, 0x3ac2c8b29506e3fe65b21bd564dffe82be4c60f5214ba07a1ae9c1ab, (-0x9d95cc8c9330637bd9ffb2745a9f059b856e195508f50d6d99660f8d), 0x2);
    (true, 0x12df4bf2c107cd62291a05da1806d0f2ba1c7a68d1868aea24ed3df16, 0x60a08fdd97d47a4b426c3a27fd941a1436830046c98875e30ebba44e, 0x2c8bafb551b9fcd5616470520ac4495a6a9c8226c918c1dc7a3b002b, 0xe8d08da229136bf2dd2d41ca022272d8fec6b484f5df0b4dab013ace, 0x1d3a842644abcd5b248fcf003579ae12f1c038d5b4ca1b8d2ac595017, (-0x6fdcdeec493151f72670e737806444610dc6522cabe9d5289e530415), 0x2);
    (true, 0xe07727b6c728f8cd9e79410ab5c9d302c5689c6e9cf12d9ba853bc4d, 0x8cd765c8d7148f00cdff00f45e1bf0bc5da3dda05083055d22d306c0, 0xa198ea160804091d84939263e2cb55ddf9a54d744414264f791de721, 0xe4aafd69a393d1e896532289c4c6406e2901f5179d90e20591fba797, 0x1adfd7ac33f275fbe95374d4d628e79afd9d6b94c7bfc105e134b4311, (-0x2d67cd8c45e87c4029bef9e37ccb1228d616baeaa06804c9cf951b27), 0x1);
    (true, 0x10b9f426836ba12381be6c10a1d5792a22c1b174c424877f43a8d4232, 0xed77ac2c19d18e76a3da54cc78608510dd88699f2ef24fc5605890c8, 0x2602d531852b98ef81bc21c121c33eea4b49f894847ed3038252b731, 0x589b5a04ef32ca8f3cd8a83b6ba813041a65b65fd194206fae0abbf1, 0x1e24adc249cc5043d5768ba8dad3e499a4d9bd6d7209613b207a64594, (-0x33c3407bb50942e4332a26c23a4b2916455b27b232bf834c74ac9084), 0x0);
    (true, 0xafb39294758d8a02e198d86a88a8d4aba6659961a50cb7a3be64adbe, 0x1e3fc8c6b0bec45cb3f41b5bb58cda9e27f5e5edc366e4cd0b110a0f, (-0xfb977e39471cc685d6bd5dac23add144041a87b1fe43341dad2fcc2), 0x32177ea19fbe5b15b23d1f38da896b498b5665358ac49d650873204e, 0x1397e9d1cadc5e0e75a37d3595b3aeaffabcd9e1d7375c56eb38e6494, (-0x714377a526006203ff7bf5bf8515d41f050c922797dcc843fa5fd3ed), 0x2);
    (true, 0x15fc1581054e7115467b092e8847c4c4b89d6ba02328d1eb61bffa7e, 0x6389eef1797a721c163480c39a55e741967c5e60b3a6caa978184d8, (-0x6a75b9a3d464cf97846b937aecdb40805755d6693e355273c9e0d763), (-0x71de8099fafe05a23cd40075637085fec3754c2f51a1325ce5658fdd), 0x28fae99795415133c0269967c4dd22f958a12ff0f371cb802cfd7230, (-0x7d63e36cb0f7e6bc95ca6c4ae7de6f6126e4ef89e4ce98f023a4b5b5), 0x2);
    (true, 0xea8a3bb828e33edc46735d08e345b58fef85dc5f3db013101d79a241, 0x6067d98ea2708cbb7c88651ab564f761c7fc58361a0d033426e7d3c6, 0x58fcfc30c6d04bb618e4113234d7527529dd292a5eadf311baf0f38d, 0x125d9bf74ac8f7715c4fe1562fcdce653c1908b242fa9c0f04b603529, 0x1c31daf34a89890518956e55853aaefa089bb332922cdaccf174dadd3, (-0x6a3193b0ea7f33c3fb39d10e6696a5bb6c3eb5a9aee2b9fcdd591570), 0x2);
    (true, 0x28b8e187da4963e3cb904daf32e1f7896c6bac7a58584855a3ebc835, 0x19c78e260bc9737804651f722c36b7864e10eb7921e40d707f4faf46, 0x6cddadf64cf5c355140cd6068cc881564d44fdd5dbea2b7d609daee0, 0x4297f87191018fb9b87e2b1b7f92703522f488b97bb844c7a96aee51, 0x835267ee1d33696a57002569a92639c6e851c3caf581ae03b9759948, (-0x229b2e30a2029342f5a16d6b4afe318bb34511964ba8ca3fb5647fd7), 0x1);
    (true, 0x204ba1f67d5adbf6a2e9e4df4b7733943a16b70796990022bf1aafdf, 0x3a07c86c58cbf12c043d959dfaf0cc9210d6e82c6ecf7e662705c77b, 0x2a6445baa9f151bfe67602a25450019e76d94e45b9ae28b9ce5e7bd8, (-0x47b72c2aaf71847fc3baaa019a54987c31f631fc3928e6122d88c1b6), 0x6814dfc9befff2181a495e768485dd2bccb8e4166771a832b59aacaa, (-0x28c9923507d8b5bf1ceaf806ce7dcef46cd7aaa0edcad72a46ea8bd7), 0x0);
    (true, 0x3426ed0485d42026aa8579483c98684aa59c76f278fbabdf5cc38a5, 0x4d6501e6b4e88ee3d5aebc3a891dff5957629c8f1afb73185d51f, (-0x1ad65a58321a17087b45ce0c6fb92a95079c7fe5a587acab4a7dbcdc), (-0x31bce6625ea15d1a1120627a46b3f6a5b7bcbb740a38b03b3ad22fd4), 0x8d8049897358033c35b3b16bb17549753ec9ecc7e888ade3600d3821, (-0x1336acb2c82e0e98d334a9cd5eb858418dd4a4512af4138849e62a93), 0x0);
    (true, 0x1d1ab4c3aceabc3f297b3f492b4cf6f162993404a0b05af93aa175ce, 0x340448bb1babe126b013c98a62467fabd490c1203e00b8c335e08a6, (-0x61f8f3a1785757b6c473d30854660905127f49f163b9a1da5cd40a8), (-0x39a3a759cb1c1a3965a6c1a51b5fba34fe4778af0a0cd7aa9d1ab7a9), 0x5b4cfe32f9b13e6842371d0fe0e1ca3add9d67825166a302841b1e27, (-0x3f37c3800402fdbaabba9fefe1398def429dc8c80a204d2dd0e55bda), 0x1);
    (true, 0x63ca85ea036aad215fea25895a3022d93199466a9796960b8ecc7cdf, 0xbe28b1c2fb6c2d6d3ee6d96bdc9b152b80af3ca9acb1cec4cd083083, (-0x2a02b491b6cffe6ad1c80da5decba3687d992d4eb6c3ff1c5482f17f), (-0xd689d07068b4106edad2fde2e630f7333fdf43515147cb72faf4008), 0xabdbdcea869c6b48358c058c1766bf7ac2de7c597d213d4d0ae1c75b, (-0x7b17ba5fdc9d0df313ef5978f84e8af483f4cc79662d226639e77848), 0x2);
    (true, 0x10a12ff2d7daf687665856a0b84efa861c21c7f611c7aca6638f526c, 0x8485f525f5702d169b203e6223665adaa31d32fc6b479e50051132a, (-0x6ac22def0a217d4bfade32d9920cba5516fdb1785ad66d4fd8ea15f), (-0x8de37b57f4aa1db1db74427a018566d1c57640378d16257089d0b1f), 0x1f4ed74f7d104ee3b14f3af9cacec74d30ce3e4bd66e282d086558ef, (-0x8a965b1d750a0255d1095f37efde35e16705e45c72179469a4d82b60), 0x2);
    (true, 0xcadc3a61b86fe51c54c892a2aa5ca89d7549d798878837e172ba8248, 0x7a997e8e0703744a56f1f6dd6d8db4205eaf55d4139363cdf633a288, (-0x837b9295cc88a3cfbea5cb639db4b3f10ebd34a12aed9807f9e9cdd1), 0x179d6cfda58f5630cb8f3cb94e647220707a3e657acac1be598c3f6, 0xeb93a2e0a0d333719fd2c3a1fca1d78964abaf49a42f68d6edae36b8, (-0xafbefadbe26e4188b452b9f74bb926e334119da4ec661a7545a268df), 0x3);
    (true, 0xb7650b3d34042b7043b2ea2b4e6eebd8d343b7a82e7dc505a8d933e, 0x12ebf5594281627901d8837d3339fe1a031ef0077cae7e142416b01, 0x4b2519390b8eb09d6e3e7e310b3cf74a2e6da0a7958f2055b383fadf, 0x44852b8015183398482e6085822d9c91de9e401e62ad05944b8559f8, 0x2f8faf1096ad2bff327131bc53140c39d7801ee8c1aa8588d9bb140b, (-0x46c5cfa3dce26f0b6411c00b9e27099d16ac7e390eedf87a502b6287), 0x1);
    (true, 0x1258d7b65ce4c4331bafd99d0de0e4160c1f7a1abc340055582deb117, 0xb788dcb24517ca81098053a2cf3cca749e026f7cd069f704836d7945, (-0x8450448420725f0de38806d04a0300e30af0610062d9925ddc8052b9), 0x27a177a961452525608038c1a77c1da32436d14880abbb73c293fa9b, 0x1274da7ea33b88bf44eacf44deee6757dc781639d3047dd9430f5d78f, (-0x479db43fb460c390d0e3cab9a556ca6dd1b9fd52fc944e8ec891831d), 0x1);
    (true, 0x257f8ea78da246294f2f2ee465c30e6c7ef28bc2076e84a2269f9a57, 0x39fca125a0104bb34a788cb13775ba3e681d3dd38e23412736a2c01, (-0xcb9d0e832ec9d90d53c5727b63bd2abc64a4af55faf95ba44acfbc6), 0x2bc854071274ebc71e1228940380ae7ebd7560c348d699e9130acc92, 0x848b5e5196b9ad7a397bdd072816eed74f9af78d34e4c6e88bc9aeb9, (-0xa3fa2f82ed314fe4b5be6d03e5bb12b49d2d27ba473565f7307548e), 0x0);
    (true, 0xf7fe85c1fe9d7606a7725bb99d2c049c3d42ddbbb870d6ee3c40c06, 0x31938e29ae795aa8a89ad9766c1ae987943a98aa3c65522d6538642, (-0x8a16a5422972cfb90120ea6620b0cec4fa9269113a450bcdd7101d99), (-0x4e8d0110c002dde2b56039d32f6d083661238eb1c699785ca4d22a42), 0x24e777b3d046f84239a669a90dbe22f38d9f239ce9041b54b5a7af6e, (-0x6417d1f0b516d9ad7e32a6fb116f7c8dae31a4045b89c2311aae6a57), 0x2);
    (true, 0x245db843eb5d399358b7cf981e32b8b0296fad203c9d0d4a1d3e4419, 0xd070945a955c1de4994fe2c0a07816120b7edac46f2b710262a766e, (-0x7943182533e47bf15de09bb1f1855b408a4e2e5b379b533cdbafd9d9), 0x19eec53d6cd58a86fcfe8eeb3b5bc5f9a255ace3ffb0309858ace7bc, 0x4ff422b1d1e6f9fd94f651dc33e1b8d92e00f7a099d0d2ff2e0e0f6c, (-0xa7230fd5fc57d5efff87026cdb120263a5e2c4cb7082fbf4e9b68860), 0x3);
    (true, 0x71ab7f95d3cf36145f2b8ab80ef0478e12070e4613f328591e27c2db, 0xb676482c87b5b35c22bde14d66ea237790d9929c5cc09c4c933fa381, 0x24210e45fd2748b38fcd640a689674dc9ec4a4626ddf7c0703016fa3, 0x34830bca76b1b616b52c637d8816524c8c5ea7e216275291f42e3f69, 0x18bf97ecdc09bc549bdb6ef9713677b87e53e61250413dc5160ca6698, (-0x43ffad4c7f883b30eee1c462eb74cfbdc3428c042c4b5c20c69b2e19), 0x1);
    (true, 0xa9def1bc0907ac6c975c841a250236ef5decf7d105d372483636d355, 0x6e63f66ecbc28f68ca29863367823d1f9f2b6e075baddee0afd293ef, (-0x37109ad7bec61f93e519d24ee510e727776566c754506b770f096492), (-0x6542038fca9bdd54dcaa7edbc57b160e35df031980405bfcc92d17ab), 0x94d43a758119826d009c7dd0f0361cd1e225a9376e878c5a7441c848, (-0x61477ab750d104feba330633140f9571fef9b3504f1f981c1b744ec4), 0x1);
    (true, 0xcf240f3b512b158b55d2774bfc1bd6b120345cb9b2efa37ff5beddab, 0x36041abee15655470f9e0b0f97c325237bb32ab23635c581b02ee87a, 0x4db61bf22a97407e98158c4aecd31500054ca3854efde9f39ba3f8cd, 0xbdaac736a26feb5611c50b36601b7d6267f84c109f40ca3d1866b5cf, 0x178e4d9f1db9ad65e567977fb2f7f2cf62c675d20046135e75849d138, (-0x78b301e0a6aa6f1c19456f4552f181fffc85b73381c9f3a3edfd0450), 0x2);
    (true, 0xe15626a9a1fc10a5e4f6e656dbc16c82b215c61bda1f2ab073c096c5, 0xc18c5a626fdc3d29ec5aefcf402843f8d162750abfc8f941bf8c010b, (-0x1674dde7616ffd0a236a99fcee30be96aec30596a782fe9b2e2f9501), 0x4e3ee46447844b8ec1040e0808e417e7bec8f4ed55ba97a646e1bb75, 0x1529f61567e38e2cc145d2814a3b4af78bd00b9565095b0486791959e, (-0x7e1269ca518bedb806b21a20a20c502e4d1840d7846dcec47bd95e27), 0x2);
    (true, 0x6613cd57608329f84ff6231969e5a7e3ea6d17eb66dfc61f1b8e9d67, 0x2b14bcdaf7317a0cb6c7276c47b4daa7f5c046db1608a5d46f01757d, 0x1041107628d9712863bce28f16c2db92f05cafea828b2e871f241fef, (-0xf2626711809820a5fa2ccba2277866fe65c1e76cd52af24a4d0fd29), 0x8b7e6319c142c9cbea70cf9df7c589cb1126ae4a23b2e534688b5562, (-0x9cbccf1938abdfb67d8d431a5dda029d22c202c147e3ecbbbc0218dd), 0x2);
    (true, 0x25e96000b4b9eeb713ad7a0927892cf1c00e7e99f2cf1e28e185946c, 0x39b7b52756cdce4cca9ef34dc578daac05baf2ce83d55a69cc6efb5, (-0x5164bb25f59ff4979ae56729dc23c2faf9408c090441ed43a90abc7d), 0x31a466d016faea81014bd9afca19c66ec0bbeae663731e564ad9787b, 0x7910f3e4e2fd2cbb049f27c547b58c124c5a7814411d236029d30a84, (-0x6bf9a834d1c293ca36e51aaf4e5411adc9179bef767954ec05700941), 0x1);
    (true, 0x42ec23c89704531ca70c3a033bdbe712ccfcc1bb68870051b507d291, 0x66fc37c5f9c168492eef96c4071b0709d00024ba7c3e2ced1bb3efc, (-0x5d38f65eff10b51e2f98b67d00e34cdfd7c303164d7a9cfbe708003), 0x5d63178c2ae5f00aaa2545cf777dcd22514183af35564257292a68db, 0xda5e73f8ef793c9fdb4358ae7e41405be20b91ce45d61bef08914eeb, (-0x14319c95104e6791430620ce5a9ce58f1d91e737db8bd44c98e375a4), 0x1);
    (true, 0x2d814106e6a8e9e7cdae7c94f2ef9621715db7cf1a3f47979a267dcc, 0x904960eaf87c0e0139dc2ebd05e4f3f2dbda3d8210b2f3f1b35e9c69, 0x10660b936b157e418dd2271f93d3f3fee4d78ba92783f8b114c44909, (-0x258b1974fb43a969a131aa3eb753b078daab400418d46d5db4fe7549), 0x1357cd6af3ff4cd6e692edb58eafa7a9dab2a6cfd471f05adaf84bcc1, (-0x33dba79c56b5fbbb6888724bc5b150be7b1961e08f2885068c374edb), 0x1);
    (true, 0x504427ab215fc538fc1fff9411c5202d75fbf26422f9cf3af57c6f5a, 0xa35615da649e07a32020d9c8232143b4863938f6b56e2987988e8339, 0x20b5392e3bff317a3a8195849a306fb61ffc582983f713d6419f9db2, (-0x17b4c9fc01526788e8def892c00f5419d64bd7d5342c64a6afeb071d), 0x1056b2721bc347485fc5eae604dba86f1d1ddbf956eec7a6ca4b9be93, (-0x5175485e4629eccf36d3d89b516a9b29e33f08ba871db36e3c88705b), 0x1);
    (true, 0x1915652c6033ab76a024d18ad6e68295b85f836f08e2e1f1d05d75645, 0xddda39d7222a17687ae65f5402fee1e1c083661ad5ff5858a61fb00a, (-0x4e6ddc567a083c578593e260a661447068c4e89c7af58c04cb426578), 0x2ec50a1b7bbfcb257357e107b1684776220852926b58288ff045a7be, 0x103f144a04581aed4e5b831977b73fb718c33db0b4133a1fb14121b26, (-0xaa19c843252e3b0a4df9b3962978ed1c1ff7be2d3e766c75b3aa5099), 0x3);
    (true, 0x7d58761d9c00aa6e9331fdcf8c624fe752319fd003a3845080319408, 0x3bad968150dbaec1d90de81c8f340b6e54c5db6ca7e55889e9077c3d, (-0x62c4405b7f3e44b1afeda13cbedc8b54e737b43cc08e2ee3f020313c), 0x5dda4a98ad26f1799aba13bdb570331c7ae2c585d9328f373320417a, 0x9c7459190a98a443d681ee29b742ed98b079a9fae33ab86201d8dc88, (-0xca81fd5a1df6c51fedad996eb1f720dc542252da4f14abfad5d3ef7), 0x0);
    (true, 0x65dbfbb6557938fae10b7807c3c024c152f307f547cdf7dccf4e41a6, 0x65ecb48c5de88872e6b77ccaad7878bdb5542e1dbee4293e16e621b9, (-0x2895f5328a89aada99ec754e462786cdc933664bce1d6c020569804b), (-0x2bdf5c5c234c2132075db81240da6c7c7449fba8389ba8ab7fb9597d), 0x4685d286b4b56346cbb4678eb12a2c41b6454bd19088ace4896ace3e, (-0xfc1f0eb00010689ea4b046803aa8e8b56feeb3ec973a8270c2d11e6), 0x0);
    (true, 0x321cc9b67271df237f9c5c81644f15259d4750aabf624292136b6d6a, 0x17822d0f688112797e1a05b29b58bf0fd428ef9a3a10586255d78f62, (-0x9e8c2a54b2a87424ff573f18353b34dd1e60c442f0a1ab43e19e1175), (-0x85f24b4d3436a24349cbe04fac16fd2a2214dda43ea3ce26bd9922ca), 0x233fd18ea42bdf9d7c00b7e987efff729b476969b08c61c5b6a46267, (-0x8da817eef6798fc87416aa6e3620448d6fdd3360fa151f8cbed67eef), 0x3);
    (true, 0x172d774996e02eb6f61377374c8de7a312d9b25b77927d7ae85a3630, 0xa123cf2e6709a5125b05c3fdea176fe95869121898b52786973d31ea, (-0x6c21faec2871df8cc129a81f8f77c149f747ab3172e0a5558c936a5a), (-0x23f6bfdc712f1cafab0e5b34d96fe120d1be859d233430047fb1bc8b), 0x7927ae2157b30ebd329a9287f7a047bcc629f30de7646d32369f1e1e, (-0x5b4a24156c8bdb9debffdf2617636b23234aac5f85315bedf55685b4), 0x2);
    (true, 0x189b19828be9e61a5b4b1de40ab6f7f4490bcba4c1c31640fc25ca57, 0x52a406f7eda4cd169919a1731d9cce1a1c01f41ab83223f082a5ac00, 0x2f3bfa222b0760d254dca27edf9b244c969ede2368998ba2688cf88f, 0x9b7d3b3b83ba51c71fd7ff225c104500f18b9d4d868e535c06a3001, 0xcd58f780fd2acb2131a1065c7cc2fe26b46c863a4025113d83245bda, (-0x83dff323cd7ac2f5751a522944ca8efda29624e26db490a9ba604b82), 0x2);
    (true, 0x1579f064670cd938925a970235055ce06a7e3b1cca3474df08c2adb3, 0x198f5cf7a29f0d00ac02615331783470bbb959c0d523c85f15de09e, 0x4dcb4056353c9b798987bae6af9826073a970fa4cdd159df49c2b69d, 0x4661cb07e64b4df46124619594bd2bab51e388d7492f3026b5b95871, 0x6b051e85de3ffaa41dee084ebbc4de0b1e04e86f6acf9fd3cafc7993, (-0x6a0579227c4a29339996274d91271a68dd2e1c399a175e5b0c2c63c4), 0x2);
    (true, 0x70ed52742e45817218e3453c07cd93c1a1a100d364c225cb3b7425f2, 0x2514e5b5e0c4284cef68d86fc061e617ae5f8155ccf1bead02bcdf5c, 0x330e2462c58927f9200606713eb52659c617cff45ae8301b84a8f3f8, 0x49c03c03999979da6dd1da3f4a40506df0522493dff56e056c9ca028, 0xba79e2fcce23a526dba9e5e973b6eb113306648875c67a7b609a5367, (-0x489406263ea78a10be006377026c1a887ed607dde04196af7d5a1be5), 0x1);
    (true, 0x11f4d6c84629bc3be014e1a874cc2b3e19e7cc359e523e3f7a2bbc74c, 0xcfaecb273ec0877b18502506f9b0ccda4a3c8880790d861d008cef4d, (-0x7c5a623533684d6dd248fb3a7753b411d2cb2e2abfecd0f97e83a0d0), (-0x4bec5bc676f1bf51016a6412e42e0f66b71d757173b2fd9d7b895b40), 0x7ccda3d6662010c40b60f2f973c340e104ed9c6a2845790095026be3, (-0x6e9956c670a0922bcc25ba4a8af0123fd3da22c9d9511d1f5402cc87), 0x2);
    (true, 0x7b9a7aa78c0a672d202519f155aa2a3a8f389164e32d9483cd7ef7d5, 0x3a155315d6875e0cd3f4de55b4691f021f6fe2cf862bea77c382105e, (-0x3d362b44c2f2a8b5b146ce5aa49edfe78c816f7900db98fe877e66c1), (-0xaa79bfed7f54807c5c5d5f14b24e369e65a93b86731c8274f30aaeb), 0x4a3f4c4ba781bbc6ca0507a85609498c37c698e6f7e50522bb8618e3, (-0x4a42ffb3495b14ce7a816abd0854e483b3e622273accba5d6e35f85e), 0x1);
    (true, 0x18a4eb4fa9517f7c77660e0e20493636112a56fc10335a90f18912ce3, 0xbb83d5c897e696f50883ef9dda8143531f6878c2f73625d822d9383a, 0x74b63597dc08ebfb5c92f530b5fcc9819f8a36ca5eee7704f5ad66ac, 0x14393ec925ce531b49be354292d9c8762d16ca70027c6f2fd9fe50f71, 0x24c1634777133572056b6fdaf0b0a24dac871873ab3b997a1b7b2f371, (-0x8982550ca57eda2b7f976833308967f2f0d85da989c202df8e0a9167), 0x2);
    (true, 0x1a907fba3dcd84bffa8c7cf35757b631fc3b8619df269248649732536, 0xd7c0ca6532e192dfec8aecd42c185a4cd86c77809059039cdfc1e090, (-0x5e67e808b42cad236f8a4e3abad2fc55663143b1427e789623c46590), (-0xb98054471b847d0e1ae3c7b503df56974c5d93ab44c482998c90c6f), 0x1275d99554543a08893e1c8f6dd6c11758c9b1c43b0eb4eb648d26748, (-0x157dfb606cc5d7f4457118f6dadcafadf2db5d6c7c50d3dabcb77f2f), 0x0);
    (true, 0x16f1e566cdae0ce63c4a1752fdc60e7722335d47b3d7c9a4e00eb2255, 0xacca05ad84c29ad8ecabe6f6bf1bfa15159ee85c3e52eea54a544316, (-0x28b44774afee3171e789b2aade4a2f8c78518627a59ea5308ce756e), 0xabe2acbd5974c26d113c9620f825939c981ede9393d3a048492268c8, 0x194f9000668874f98c095518af97c8cd54f03607e3ed04a9d46d0de89, (-0xd32694c949efe0bd0963f61992dc5165fd0ed3dde05c483e2335673), 0x0);
    (true, 0x19c7c3da7f0e1fdaa4c97db69dce6ffd96f5428c19d4150b9353bf0ca, 0xff5998669691528ba7c80981ec44dea19950b11b299de57b9b29597c, 0xc8950e367c16f445878b856d6e416dc482aa67211d27de15ebad9309, 0x14289d5e1b4c23b8bf1b0c516906fd7b7d2d51f879a46a1373210c834, 0x2a292941ec562d36b4f86526bec614ef4f8659317c0209761e247b793, (-0xaaba5756ba3c377ae5ecba5359968e8311bbd0e4aef05ef9b4ed2ac), 0x0);
    (true, 0x44b1c36070a2cc0f19e6f7e611b4d7b91c6e97747319fe226242cfbf, 0x255ed036f2f6a00dc6318a432fcde337a73c9f98b8d6add436ed9718, (-0x74948078a40c6c955e52aea27b921c227d03feb438b073e19f1d945), (-0x3fdae3a5f1223f53a71021206c8091ab5048680f46a72e2deaa164ca), 0x2715d09f884cbdac9f372c1d993f77937ddd49f92b5698ae4653e119, (-0x30e7a1beac17ba246fd08ee6b07a51d5ad301810830727408ae35197), 0x1);
    (true, 0x505d62aea22585c65ab8944161e7be4c14da3360f6c8c4fdbb43ae40, 0x326d1a0c68f76d36a527937929a07ae00b1efb3c0514ac0bd24f6d4f, 0x55ce84133748dd44c0362f9ce8b2255785700a85c283a3fcb81a7bc9, 0x12db69329765fd96ee994594b3df40b25eb6f1020a02573a547f98d8, 0xb07a791fae666a4eecc0c105972908519f501eb92822ecede8d0b81d, (-0x4f6ed151d9b9a9d4388305464d5e09f7a6a2cfd3af4b8ed8cf0c6fef), 0x1);
    (true, 0x18b2b2acde3b0f686da6d449d26dd501b15710c09dac4f5d4232344a0, 0xcd6fa8e32aaa35e505b70a51afd062dcb364dc321f7786d6de2df8e3, 0x1ca3a023f487ef479202a84c4f7a0c1f71bd0a259495e78957d266bb, 0x10c49287e18f9f22d4acbe0c653453a5382c1bf6053f8e405cd644de7, 0x216e21b8c616fa40108e648694aa632e56718042d7f860038826c3b03, (-0x79cd8afc918c065eea7a9d22187304312113faf23af972092b967cf0), 0x2);
    (true, 0xf4259e3bf601f994e11b8548ecb22da849470a587966ed366bbe059, 0x60d4b1d15abdb5345b9cdd545e7cce9e6e63a459f606730ecd6fda, (-0x5dde9ac1c2b3434f3ef1ecefc1d476731b6b6298d39db773f788b727), 0xe265ecacc3cb4ca630488ccf19799fdb607c8cdd8920491a097f8f, 0x9aa1d2f3666f6b2d7e78485131dab5bd84f79c3bfaf5c4b83811e4bc, (-0x77b2175e664de5cba0cd47e271bf5af6a401e955919c999c17175466), 0x2);
    (true, 0x106c33cec0913189578d3294d2fdf3711dc05088daaa4d667812780b7, 0x495430f13c6d426629066a3e89d3382550d6364844e09786a6f10cf5, (-0x1c8c4fa08a8286eb02664f16b639fb49a1465a994cd35db9a475403d), 0x10a535ce5bbee68d6af4d4e73be237a9e2a9b79e52c5df77245f85d2d, 0x19e99618de46f5b3f1bfc2c353137fced732d27182bdcee9a0d01ac20, (-0x1a2741bcdd4ccdfbcecb1218a010ffa9efd72a34105999ad7d67fb0e), 0x0);
    (true, 0x48b67a0e77e4f801f1bb962010c721143cbee0b934e7213400a39503, 0x7d16a72534f8f853af1878cb6cae2b94493bed31ac48ad876dc2231, (-0x51a2ceb726994d9062c26f7dc37fcf47172fd22c80a2ab7cedbfe632), 0x5b37d432f274b0444e45e28618028093939e912e4c28ea7920799398, 0xd49380265491ea44fdef9015862b417c2ff37e47eaa6bce38675325a, (-0x73d89efebb9476c2d80ef6fe21f321f9e279e2f2a2dd426d0f50c342), 0x2);
    (true, 0xfad48b4c48e8b09ad9d0041dd2070bed109c0bf0f56f2a6ba600fcc, 0x53994add8bcc70dca815a1d131ed9961a0091fcdc7128e7636bd532d, (-0x192dc36c29a27e0a87c3fed18cd3b3f2391a922b6ef93abd74906202), (-0x12e1421cd375b19df7093ed36268c38022663346d6a050ee2c2e6db0), 0xd157cd7aa7e6d70c2f613b0edcf52c7b51a2db03f097d15d04c6886, (-0x3819ac3b08d27659be207a28b566066613cac7501eb45126937d5894), 0x1);
    (true, 0x107093ac4bb6de9db1053626bd8646ba038518dd79f6bca5cbd45f43, 0x37fb27a55c20d6f2d5dd865011709836c586e9f24ac9e90798353ab, (-0xc0ea130a85ba0b8c9eccb0ae0bb6348dd8c02ab1410fbde9df5a176), (-0x986eadfc225b8a7e0a9b178bafbd713b3124908c27c6e1ef7bdc03b6), 0x1570fc970b51a176b7150e26a710342449d1fd0117c829536cf5178d, (-0x610e8a55409e9a50afb798f1a863e36b3a887d8cf3b8b12e531f46e3), 0x1);
    (true, 0x680240d3b755153f8c804cd2592eea4d68f63bb2a62ec0ba455d6f96, 0x1b61f1f2b860451360f271c052351539cd6c737e052b5afe776ff208, (-0x384f92f5984145376ec47bb067ed6e7d766b99ec3e4fd3338d59f8b5), (-0x9e646f36d3b82a25f05577220adcaacf2c195d8615567576a36f6e5b), 0x648681a9c4b36b16874e9116a81ae809d90623828d75c2d7b230e330, (-0x6b9180b9d90d2d3ec32b47970b964786872c8afc81c76870fc463490), 0x2);
    (true, 0x6430a2243f504ec0f2d4909a23956c2c29af75450040f3b5892fcea, 0xcabf3f7168a35360f19f4d6dfdae12eb4abcb54badb27c6ed12e325, (-0x4e410e9229022f46243dc6324a57d4a2fe11137ce05522b3d11afdd2), (-0x6ba99bd0124ba6040ce58f35726af711ce490f123528618872972c5d), 0x31e0770913779e1dcb261c8114d475104c67450909f832365d12b889, (-0x13575d91e01cbfd54a813bec986f401e10b60b3137e891188a039955), 0x0);
    (true, 0x373d0d609a9f162118c7d28c2581b2d53f630196f77646bbf5693dda, 0x66f35fb1b691a912268b7aedac31f38857431ea6595d45697e3c767, (-0x8db58cff9e32404fbfbbb1b01c8962998e3c5e1e9c70297595815f44), 0x50b628eecd7684315934ddf79d1fdbfe209c7487d9dea3e9d6f931f7, 0x905413528f92d5bf57c911f1f0d6349b342eea265be4efbb14e322ef, (-0x432f36a27d34ab47bbc6366d44c950c52b026f80ab97358ed45477f1), 0x1);
    (true, 0x108326b8b7077024cdd65f755a7c637b07bfca7b55e13d63eddf45418, 0x5431d6f9e794dba4bac4ced73ee494ed443c5ced86dadd16f190e4d1, (-0x33c47859daea467295e7104c66f6af648969d11e1a2f20838debc23), 0xbc60a40a8fda221c51de11084d1bffb6c1e9c3975dbfeb2b03306859, 0x1562743b8c3ed3343a76cd6cc2c3d92c190342d5890be400a47a36e1b, (-0x1be07b5860f59ebeaed9f6c6fa9cc681d851b83ea85459a91d4c32ea), 0x0);
    (true, 0xa8ec1e59d44b635ee00aa3361d193177593fffbceea957f06b7eb51f, 0x45b7d33d89723c087432dcb8270d6257d1d11bd137d1b82ea8c061ab, 0x1d8899f345b70bdc148d6fa732817359fea672a67f71157a405cf96e, 0xeb88e07533267e5d1c654aecf39691be4226f5a0754e109da7013620, 0x14c25da9ccabb24b83ef53948e0f883bf6c3bc1b119badb2ad49e5057, (-0x21fdebe2c203088e43ccff093d949c2c5779b485fbf321edbcb0f282), 0x0);
    (true, 0xc5cc8c58c0d73ee657c61fcac56b1e6e98acdeb83e45a7ad2ba0642a, 0x4d512b9c8b10879655af3311fe18044b320f1b25ecb68d6775067d4a, (-0x2042129ff55b63edea4b1121d8974b289125285b6edfad6cf185687a), 0x26e768a11ceb8fcad1647aa8d334fcde6660734afa818c8a91171a7b, 0x11ee2e41ada916702324bd4f4a13ec778dd971fa3c9b181f7fe68ee0d, (-0xa06fa21339e869318218d9a668a13ee0c985a8afe625dc3c7e514550), 0x3);
    (true, 0xf08854a1921c82a9d05514c4719c2c2707cbcb83922941373d256a0, 0x5e96169c3e54f8188a87cd0875a9b52c0fbee4cbb9a04286642a1714, (-0x531ec5f93e0d7a36b5038d65ec5fbdcd2e128c142738bcb45e3269a5), (-0x1a9bea2aca0f4ecb459d2dcef7eab9c5d2b22d6a75a8498b522d3648), 0xa0f2b24411e10c0e345db7d76be31e141beced6bd09d39b23a34e948, (-0x67087f1c4f691aec23191df85c72163992bca1d49960c5ecebabb230), 0x2);
    (true, 0x5483f10bf71ac10c66b8a38db1c8a1f839e81e54cd69013d5b4644b6, 0x3fdd6cb2a1ffe28b069f93e05d14cb1b4ff0008b244365bc85301a8d, (-0x18bfe3b42ee5a793ec68b7c0f61ea1be3d4c1ee195988feb7c51780a), (-0x31e968f44f89e505d23a99b56106ccd749a37a0d1c53f84efc65cf62), 0x4d62eae55959ccf9346e8c6f7d37fb52d930bfa6970550904c384599, (-0x4029526635a0ab188b1223ef70646418d3a748ddd04b9ddb5972efca), 0x1);
    (true, 0x72985797409725ffb3ed67b851f4b023927b5f2d252fb7ed3c8e20cb, 0x13692ccf91ca618e988eafbfc2e20804ceb494f30706a41367defad2, 0x8f8e799a4f3abbc553e878986f116c8d87f3173f7d1c3b92f8ba8ebf, 0x1188b6e6811fb6e1eb225a8b7eb439a565d3fb6f47668d32c96fcdc3b, 0x11be9eda95bae6795452737313b9645c15d070494eec9c9ca4efc5ca1, (-0x3ef6373c0bbfba8a2aa123d0b5eb04ae208babef40ec7ebabc87b29f), 0x1);
    (true, 0x3bc273863cb217aee92924ab6d035a903757416f4d62ab1558460fe, 0x2383e9154cc1ba6b2bdfdaa6e51a72eb83d5111d5c582553adc5e5, (-0x94fc38638ab67094be53ab0d9269dd88904706f6272ed0e2faa6a94e), (-0xced82ade0917bf3463ba9769a0c4df80cd33be9420eb3a60d0aae1d), 0x19736b0d42c68cd28a027e2df828d599b5a9c293f168f660f5624fab, (-0x380675ff9acce6c8ed242dbf4b3fe91d3b2f7eb6bc3663a8250add80), 0x1);
    (true, 0x1029513f06cef9a68cfaaebb6bf1d41a4a1c89a6a9d5ae2896c665821, 0x584122f154432dad8afb71bc4c3160c829bb470fa9275344f13cb1f7, (-0x1a996d0b2cba979502f41db196a0a728351f7d5aa2b06efaa999b461), 0xc70a9894d3a6aa491e1e06a0b627686003787673dfc0a3be8dc225e0, 0x19d06cf58ffc6f3c24e4b776694a2b2cef8a59cdb05b3cb9e7b134933, (-0x8999cea743feac127c92991e648e9bc8e61ae71444c361ed684c6a41), 0x2);
    (true, 0x135aeff665d04a1fb64ac2b4e5fb71a5d3222e66031300455fa8b9bfc, 0x9f62479aa1a567a2f93e76cad95950603713d2ba46e4ae8a50b5c0af, 0x567a3d2bfeedba0d721cbca633760ef3389aac5762218817f907d5fa, 0xa5e3c90ee90e4b561d73183f2d5e254c9722a031d9c331b223417642, 0x1e96ed7e1a0ff1c80df02cd3f3bc8b24c71d09d1235645a494a7b0088, (-0x519a0a67045bedbd45f51c51744bf988e6ae8a9ff845ebd9320fae84), 0x1);
    (true, 0x81bdf5ad6ce5abb3e4c9d3604d4ea6c070df9dff3303252a0be78950, 0x6bba6614992b5ed4abf7cc2f7c89cd8ffd020b692fd97a84d8145d9d, (-0x28b924eb1d577061926d0c4284e970fdca9d533a7cb58f2c8be40f81), (-0x56c722f5f2c1a47ee1e408782a821ccf9c67533bb6c9a682f23a9dc3), 0x790a0a3ec5d2934615c1c1941723560105ec8b70b985d24a2c983905, (-0x2efa719b3455cffcd65402fcfa3727848d3806c753cf5ad53486890d), 0x1);
    (true, 0x9d21cea6d2002a96707c9c009a391130e329b911eaea8a032166a4d6, 0x357d72440ca511251a6736d16c85299d53c934eb5ab6582a2f6c8b95, 0x447b2a37c0503ab1c29a71d6583e0af01338045f8c8ea74e0874991, 0x73e2fdb2c67187eea13c9b23f50ec9a94e95316f37c0417f9d1c2d5c, 0x11167798f86f74e54ce5b49158cd6a393cc3ace29aa803627934e8673, (-0x848d0d4f681503383070707435e090b55efe7d3967e5205223085a48), 0x2);
    (true, 0x96ed9dcd63ed99f0b93feee3e2162ad9069808865b555ede8e34cfa2, 0xb9bcddda7eb529bdb929184bb48ad42ec6d079ef4cac9ebc56f33650, (-0x30a89a48d6ecae13344ea52f1f554ce57f087e2b0fd3c1bb560f6241), 0xc12b8aee9f73d7dfac3c51c9ad9a88ed33be752687fc11bbf95a66e, 0xbab9176b50512742bf7e16615663354aeb79b850b6de7b0650ff70c4, (-0x1b5c55d51a32875ccce3af80ef9f40adae9948bc46383dfab8ead908), 0x1);
    (true, 0x1429c51b27e8a26557a12e0f8ef2ee8b5c7d694d1a8aef1ddc43815a, 0x670c48694b622cdd02ad619841ea7fd6323ce348406da55f384f13a, (-0x4a8d4da2749096cbf0f1d0127c0cd24dcae537ec2025bcec1b6cf1aa), (-0x581425a11144c0652caf98f87ba68177dd65daf8ebcf87005e6d20dd), 0x185ad05536a011abfcf758907439cbe2439a19ccaaecc39d1ff62771, (-0x1ad2d1d5b9bbe0a56b10fd9667052e794b84f8c2a6f030d6add90f86), 0x0);
    (true, 0xc28523417e4041b09449854c6b9747ecbe42c0166f1fbac491e1cf5, 0x4bc806127934413e385686de01a6e9da00f0b2283d3331ce48865f, (-0x1d5cc2cc2205a71d6e889372b84cc506dadc622fb273cd7d18b8db9f), 0x22b3c95ed4b11459981c0c5cddd603ada6f9155c7db544cf40c786c, 0x8400b3dcc3a4d291f0c2e871faa6e768182324d7619a939cc1356f81, (-0x6819b75a688e0c34a8a66d69ee918f3eb786b8010245d9602b446a88), 0x2);
    (true, 0xfc926a2e07d82e6d19f3d5a6ee30d3e7238963f5c144f9bf7878efbc, 0x975880c348d67d17c7716d8e9322f19bb8ee17e61fb1fcfdab4dc5ba, 0x876a5fef1afb4ec5fb71ad84030a2b768027e6eeae1873dab695d2e0, 0xcfedf2164bcabe9ae91634c7443ae63c323e37149afeeb724c53e25d, 0x1cec130fc54cb5b67d7767b963d408dc3598f27462bd81b1fc697b026, (-0x9d7bc71e2eb23f731c5473e19a103c733e0099e810fd76995ab88358), 0x2);
    (true, 0x38130cf8e3e12a2e033d3d89414b381c606da3597ad8d47b5df41d44, 0x6baa6d5364a0cf90883d35de21be38138199c957cd58551dc53ef5d, 0x93ea5227144c5ac1f35764260262e8e11844e40d3707865b404086e7, 0xfd6a352e76ffdb83ad41be81f7898a602f60ed5b074804129a3a0581, 0xbaacffe4db371c2c0bc41192000af63c25de19cf66942d7d2159a329, (-0x13653b9858e148f22b8c0be4db2a763fde2ac7f5ac988e9a70bea551), 0x0);
    (true, 0x169a55b55d5dfc9c6128eac380f60c47564c4f04ec0265f5dcb466b5a, 0xcc2ac3989f0a1f0b276ea48bc90c6182a5ddc04f2f1e90e6e6b47e6f, 0xb1fe0f40ecdcb4cd5e0af3b06d7bd87fb2079c03d6bc14ca26ccecfd, 0x1553a758f034f478f20f65bce21a308e831f5474d236a8db1c093a01f, 0x2482c6831147f3a9d2401c4f5281af2d5d272ec5c93c73a83ae01e3c3, (-0x1d6978e37dd4f072e4114b10e10f66c3c66e890884fbfe45bd4aa6bb), 0x1);
    (true, 0x30e958d29f556df3032abbf4d23888133b228712141a7dc1bb82858e, 0xcf9d2a3bae607c10f753a857fafa49234488d5857d67cce22dadfc1a, 0x2e67ddfe10cb9b5294a6a95e5660942bdd16a6ce7372d13c5384c61f, (-0x584a87aaa684aa3cd18e1e20b6fdfa3204b15f103f3e2da7d7dffdd1), 0x124a066a694f6e1421fe64e19755d1d41a4019fa419fb385a6c403bc1, (-0x637f04afd37ae30ebecca44f3917ed913da95f8b455d3534baf591ed), 0x1);
    (true, 0x1e8bee5e56ad2a7ccca9b28b787ee1b0b7c139852d324cf06ab4fed, 0x1a3979a6bd94033ef20a451f5b0974d36543138f842ece5868a34, (-0x5713a8cc0abd89e0f83534e3bf20e7ecd88bec2b0b62ea5b39ea38da), 0x3f06f1e9e1820a8f6e1bd0bd46b5555a4787e9389a7cd998d066fb3e, 0x8f041bf919f70a4e27a6845716f7b13031cdcdb8041bc5cd84cea7b9, (-0x56dbeaa09dbc53568cc0ea127c64014c3b760cbe7f3a0e4fc0b958cc), 0x1);
    (true, 0x961b79d8ae2d86a8b4462a21d690a1abfe8d36a4dd9123661e02784e, 0x4ae36f75dc71dfcbe45fb744a0f4f1e97807788c31ff03aa3ebcbcf4, 0x3ede746e20c49a9d2fcb5eb057871f2f5f78bb8fe69960ee50b31499, 0xa019a67c14c19be1e7fd4c48649f856dad22159ba644fdaf22ebccec, 0xf3dc233dcb9a1c9e83963ee252bc6999febfaa8d262930389aa2ea20, (-0x5b78f69b3142157fb9b95391b509a8811d12298f71ac1773990084db), 0x2);
    (true, 0x141fe501e6180c74363c47dc1990e2172fe72fbe387d7ebf7897421f, 0x7460092edaeb80867f1d9d40510a76d3a003bd099835f42d497e13d, 0xc2a82fe7f6bdc77bc51c47fe98bb6b9a5885be092ea6b54ab09bcc9b, 0x3b5c78db53d1bca5656a89d13cc3109aac16ea23c8233c0bb31d4ecb, 0x5fec6111d04a02e30b823be794c37bfc604c5baef3fc97df11a5ebf2, (-0x99f331372ed487fadb53f9bbb1c627250639f26f15b1dc6240d008e7), 0x3);
    (true, 0x5e06a47dd1200a1f8a67ca4d5b03d3586f656ab2f7b0383a6e0910d3, 0x8053b81388bd69d7d6e87449019175f788b5d03721332924482a3d9b, (-0xaacc3631e9d1cdc65753b7c9107a1ffef3420b7096aed4c79b24ff63), (-0x6af19f79193ce988dcf413e776b3344b373d81d5b6f211cd5c10deba), 0x31c92ca7a225c8469f25bec9aa1738582a789a3c1fff167af613d532, (-0xb02bfe51c254ef15edf18bed37f86868823289cbdd47cdfb5996d01d), 0x3);
    (true, 0x4b413305cc28fa00c8321e008a040037678cc59a1906c40ca55e888, 0xca6c681f33fa76ae2a5efc165ff5da2b966a390953e438776f1c2, 0x7de5f9aab980c2bc1396508afd77029a2f5a309d4062f220066a04d2, 0xa3b7877cfd6003317ede45d2e092afc1e75aa67448517c24d9dee87c, 0x76a48195ce3df46f6ec10089d0cd93d7d8bb8fe5342483d141701876, (-0xbb398322218591ec1b93c1e5e462837a16957afc3608f348bb21b7b), 0x1);
    (true, 0x2c07f85d2351ac8f755f285fa2adc6b187cb7b85e16d1e416b1f5c6, 0xa26657584915c01977e785706fce0976cb2daa589d76774921e9e00e, 0x26140bc12677aa630d4574f31454410160e0c0cd756ec58119709efe, (-0x48dd1eaa8c46f22b226180c35f91b2f9593cfc3a1979672bf61e3f28), 0x1199f2791f9ce7780eba615ff1e5d1065ff055e4dc5237758c15624be, (-0x95eaffef55ddad6ca09509d33d911fdcafb353c60e0d3e6a8fde065c), 0x2);
    (true, 0x6e818d92436f7b98b25f3da5bce4bd58055498150afca810c98bcfab, 0x2b1a80f37f0526cae7160c4009e3fb8051cb3c5351e3600b46fa7a18, 0x80754ae146a545c1b7ac3250b1725ddc2d1784534fdfcf13b227cd4, 0x46e14a5f25747377bbadfac0830d23359ceea2b71d2a660ac6aa457e, 0xe59c643d796c2a8fb93d717d39275f4ff2986b0bcbb6e6c85569a6c8, (-0x795b83dc657422f9ded5014e7039fd13caedb6b2ba72f8a9e43b96c6), 0x2);
    (true, 0xbe7ee9a47277b6b95eb643b647a9485b87fd97771a6a0fabf3a3cf73, 0xdc69532bc6567d6a30236a7c6420f900ce920e2279e8f01d0558291c, (-0x961dcc2df1b0a26291c3cac30bae65e8c89ab678279ee3e2fb1c4d4), (-0x4f0e20ed7481abb6c9563209926d691c912043654a897547efd91aa9), 0x78a77a65907ec9502a65289073c0d35cc3fc5f2127d683827f7f2434, (-0x3f9ca739a926f06619338b7bbc99fae8386a0c8577cdf3c8022c0290), 0x1);
    (true, 0x282bd6c7290d0057d6c19271c55dbd94d282d773f8c26c5e0c719d70, 0x36075bf005e5e33719b92eb827d2f0064f57d0669958ccbf6b02c0b5, 0xb2e965c1fb69a82609e7dc5e3b037000903c78b343947f85934394f6, (-0xe86a9aeedf82339fae580994dbf37702acdfb910e4b47c7e66a1541), 0xce4f5b3afa815e82d6f21c23934be7d520b7f94c88bd6a9cc59d3dfa, (-0x3baa790ce836e0bc03cecb277f59f60397aef4ff9161b59efb486584), 0x1);
    (true, 0x6a409b659018d3c4ddc7ab3eb874cdf8319da718ae03742fb709f1e9, 0xbdf9d6a06f6b5b907c0cca867878df739ced7024781bd9961abff552, (-0xd090cc4f33b6ee36b8e74fdd7ae8bb5613fb419536544277a991156), (-0x56e71338ac2c209997c4121626eaeb9c5f1e76235c90933ba2648db8), 0xa411512a13da459c978b2180597f52ec603f015f01ce1b427eb96e48, (-0xe94d5288d6c4e8e4f8be66efae5e1a6f00926e72032e4a4119b79d8), 0x0);
    (true, 0x8abc2decbba894d9ca56b7a6759cf90c590c2b2b7a324ad552790727, 0xd42ebdea4c2575524a6ae775c4bd0e254f6d5c602ec1f7227f8857df, (-0x2d0fb84c5a5ac8b195e683b53c2a0c694cca8b3ab657ea962fe8d0cc), (-0x8a08612443312345c44e616cfbfec980fdd4f00ec9e69809a44597c0), 0x6c3a3b6d242c782fcc4723ffebd3cddb58161b1b0d54dbe6a56dc11c, (-0x8355b44f915b1ba61276d07ca7204d8ca465b945494960b1784bbe6f), 0x2);
    (true, 0x72cbc686a46dbcb6bbf373fda844ade81c4bc1daf5137f1dba29ed46, 0x16389ab586d40f4d40aa429219b0a172986396f978862200d85c2b69, 0xdea623900752d288b254e225b7dad90d3f30216e5e22bc60a0bb037a, 0xd034e08c334d970d15d4f8a844d1ee663e518c3c51ce8fb733546a11, 0x1268c51d8780348a7ed239b0e62f9324abaab1218410865c4c513e884, (-0x7c6f11a2f9ee6a22bdeba07e78132e04fbce7cbe70c73cd5c9a10aec), 0x2);
    (true, 0xc780323ec3e88c4d8a677a78a7c007d11c77e262da103f3dd3e85ed2, 0xc332ff393a4139b47558d2c87cee881ae1e9a53f98c6842145187635, (-0xf3f845bc6380b78b692a61bd5070da767905815c1e7fea8106e1b82), (-0x45463d36d58cda3f33e3a4ba3d0ac0446e908477705429be6536ecde), 0xf0d7846f52c1fd581d6f1d15a58ad95d60ed2f45c15b968d46e44cf4, (-0x618e0aa21463d08ef7892020ef7002200eab186f10d4f94bf030bc08), 0x1);
    (true, 0x5c23a0cead9e758fa1b27470bb8cf6793ffcdbf879b46def3a26616e, 0x10b2f896476eeb2f1121b1ccd079202f9f03607da4e0129185dc76a3, 0x2cb46f6909b8d3a0c7fb0d8cefcd260218347aa71c14ac58ba3ab6e0, 0xdb87730e9d6de52cbfe94bc0f1523bf4c35e398bab8aad3bbd5ff5eb, 0xeb8ee43a7e89b09d0b011b2b11062f5865b6c15ffad1f737fdb07fbd, (-0xae06975f273743137d669602c337d3e285343aec965531737e3ea93), 0x0);
    (true, 0x7f4af5ff06eb861d498ff60ab390c991082cc0861459036d3408e73e, 0xed432c6f338aa2ea1a02e347dff1f02653e25f47ec6596ee620d88e3, 0xbbcedd6c36f254fea4a5d812e6026d051ac07e824f4d49f8a60ba418, 0x59cb821672ffd62e74cc163ad3f6f0b907bd428c17153497363f6da4, 0x1d10fcddf45ce0d9b353af01c23061aff46a32f7bef82e81293aa8bc7, (-0x1e05b8c26c39990ae3e9514b76ddf52dc50cc276972544aecb4f335a), 0x0);
    (true, 0xe4c596aa8095171dd96bd96bd94635c8df8680393e02c6afe20a9379, 0x6ca37ade86fcd4f84c8ebe0ef4ff9c9f9e2578d0eed8da6a04218f98, (-0x3e0a4177779a2da7ba9990b6458b2229e2a7bba51d720d21b84f971b), (-0x69ea5566a6e640bfeee9c6ecb2e60e4f57b8f78eeefae18f8c9e5506), 0x8df7591c793d652b7ebeb6a6766de147feb3ff7cf0b81d1ce176e03a, (-0x325bfb4605ec6627ae678de2a7cbc0565d94f57a8ca68a46f8f9d3ac), 0x1);
    (true, 0x23523bee4ab0ee89f4f5a477365717e076aea605d9bf9dcea26237d2, 0x820a048f6fbdca169aaceddcf4848d0251d1eb597d4c226dd0b62eb5, (-0x5361086a67c5a5b0b5eb0f74bbe77275484e11f94af61e93702fd32f), (-0x4c23c4a1e77e36409430d321335b4df60cd82bb8622bbe36089effe3), 0xc87ebe46f8a0f2d551ded6b6abbb8ff8d47d25bb86aa3ef99b0dcfb, (-0x207a4351966dcc1c84bbf95a8f5d85c955d975a89a943116d3e09077), 0x1);
    (true, 0x28d339607190bebb2232d56f4b16fa9ccc1de2aca719867bdf4f0353, 0x61e3978001ce38ce52fb9e7c7ffc1bdc09df32de0e0219e2b315510, 0x5dc7aaa8212537d8b07b74b1d5f56fedb67399b88f973e8349bac9a4, 0xe880c4a848eca99f271532bd2dd33b4b7ccb66902ebdf6e3f42e4064, 0x8b683a1a8e23364ab81bf63802a02b2b264cd0768cc924f79bb41817, (-0x85e35b6caacda35a528c7858185eecde58e6583b160386a9467e1585), 0x2);
    (true, 0x24a1665c3299be20b87dba71a8e6f61f4567edcd61c3f9d58ddc7aec, 0x774a212b792ef8377f377b1309af4c71d680b19bab72bae05087038, (-0x4ca0f25ff9344f47e0be2a06c4bd8f205505d5cd0ad0f26a78e99919), 0x1ec29c3211b4121c249a6b5e28b8d7242b5d0a3811507a88adb4b4c, 0x3d75b7b81213f6d685c323c0d2bd4f79d57760e284e352113211d92f, (-0x14a7b8afeaba259d112f2d843814a83727ddf15f1f896d4ba5894e51), 0x0);
    (true, 0x12d1df14ef0999299d95a3fcd602713d88ac68891ec833080e09a9cbb, 0x6a56bc2247c495abb288bf809b3c7e86edaf86ce2fb0389feb3bbcb1, (-0x38257711f2e16cdd6f135e1896123f86755dbf867335480db739f07), 0x5fa135b8a4750d7a20adda661f4dc54e366bea5dcbc27298380b7e1b, 0x183dffe7a8d5637aa8ead2a098a30769b6c559460c0696ef8b4d66c27, (-0x9f55d42ec5da0d0d8cabc1751df522b9984aded2eb0e401d1aa2c077), 0x3);
    (true, 0x10165099bc23b06789ea170a6926268b6b16cb0e48fdb885fa76690ed, 0xd1771f86dd05111904679330067ce014ed29cdd110c1f5e005b2ff4f, 0x51c11180a671753c4525d7106dd8595010c94c852da56bdc1c4bba54, 0xc7f93dc4fb877ed1665b6f4d40672fecc77626f6e8c3d9183b1c265d, 0x1be4065581039debcedb56ce39167cca4f9e5020c4da17c542838794f, (-0x76e311d18dce862c527089c9332b821adffadf86d1a8536335d9f41c), 0x2);
    (true, 0x5a3c96721e32172ecbaaa56569c0c484f532515102b4f69a95a6a89c, 0xc9710ad291e5aaabb5d99fb4107c03f9c203874a58dd8abef99949b, 0x581fbf0f705c7888b3dc5ad08302e47464d0f7f65dd097b33b7f67c0, 0x62e94e7d5c5032b7241950ece0692b5c1a7128fca402d886ef85f4a1, 0xeecf7db0de7089b2aea62dd43cb5ad358cdc8a3bf89b53919fdcebf9, (-0x3f4845c96722166de8514c4801095b7a09162a4766556c137fadb4b1), 0x1);
    (true, 0xb20eaca5a0625cc4ae2ca6c70e418895edcab53827d4b2f7ffaee05e, 0x5f28897fbcfbcaf6880cd28f6ca4e66482840259effdcb97ac26ea62, (-0x2863b417aac6676f903f3a0275be2bf19f4a067a226e2611c86ef98e), (-0x707fec8d8877f4186c4aa8061fa672ee7c55c8f3398a4ddca377d768), 0x95d039b964599b2fa451908e7eaa7c9d8ee43153127c003707549596, (-0x2257a3cf5303efc292e25c444cc35d8369c2bb7df7ce724c75b63e05), 0x0);
    (true, 0xa0ea16e556610872d6b33d6ade3987ac4792cc48cd5bb3fccd7fc73b, 0x1a142e13c0d645cfff163d2c825eaf25bd5ce9d71dc76e8f0047e0de, 0xbfa01b60b1456c88370b5c891dad92344bc02d667f34f66f737536e9, 0x17d7b77e3e3e63511008240cb37a40fdd586b337835338894b821af79, 0x1925664acce38337c65f12f5654f707a14da58c0221408d0ddadf1f9f, (-0x8ce446b66bb31c3c160122d312e5c88c00d9503e20eab5b6fbf149bf), 0x3);
    (true, 0x37b346b6dbab9f299281f8c3cbc67478fc7dc588186cd987e65813ac, 0x37fa57393545199705f9b4cb53f7b86693d555783322f65ccd658a33, (-0x3e9ccf3b40b829de5733b55e38f2d89971885216aa9423053b4a0903), (-0xa1b5846ec1b9230703057f364969d13e86c5d71cf2ce6a556690edf6), 0x1ff2c50cd8d6e801bc8a54a2043a166ac135c02dc443c1c57e3bb110, (-0x3ab994b148e9e1f6e4aeff6e723e5f3d484e6a53c7a243b3d046e022), 0x1);
    (true, 0xedae436492235f33a2156f913459ebaa7940efaf503fd8ef5baad249, 0x4d46a768a2dadd97ae347cff98f6ae1664b882029a84b65c9b5d681a, (-0x2ce7d6d51452b31d8ca0336c744b5a91819755cde38e57bd9c5f5259), 0x8e2fa5c987b26aec00a39dacf432c7204796c691f9d61c8a492eb56c, 0x166c35095d4e5a919436af1edbb959b1823f2bb3090c9433fffa77030, (-0x2b16195cb42bfc55e49b355a0df2f99b41e554b600e8d6f5cec35211), 0x1);
    (true, 0xd2188171da82412e817840a75b9d8f573c374c817596d1321a40f05e, 0x5efa78aff80e7797f9df28dc4b053759efc894c8ade7555d67f46a1f, (-0x2c36b86ceccadef3c8610efbf223b57d1616bed7a3ed6813a94e05b7), (-0x440b91b73553e2d41f9e2aa877ea46158cc0f4aa2f49e6d2e3ddc765), 0xc01dc1d59cac4e0e5f8cbc3c0fa01f9e967f17f353b3c4efa144f910, (-0x71a9395de9826f4121273011763771e8fa87c1dc787c4e71c62cc92f), 0x2);
    (true, 0x4bba0be0ae4213824ab1cdf4ba92ac239fcf87bf12d38560479622c5, 0x102b5e590bad0970a006acb0be8d26c0d6dce77cc45ffedaa39dc558, 0x43cde3486a0acb2cbd5f9bf03d8b7b9a7a7f0ff2b430f5869f3bd60a, 0x9d2bd999e5948ce04773108adfc592961ea126f5fa57bde509082776, 0xb43df8f54db34141585d0e1721ad001708249d040171bd9a00d9b690, (-0x52f9e2791ae062a9b6224ebfb59ebbc0579fc1c7a355523bdbd0e4c9), 0x1);
    (true, 0x22ae292fa23646889cba2fde819a62580dffda1a01f0f1950a807c84, 0x62ad37159f54e0f34b19fcd7610af4f3c60c11d46bb953a7ac049b9, (-0x499d017a61bfb420fd9d6f76311b9e133c6c59556ebe77c83c314563), 0xc7fce88ec9bc7fbff0fb7adcbb36bba48b36100fbabfb2c9c43a1ff, 0x3af9da73aa2a3ed83de3ab7b874b7bb1b13332c6726f47f95a52b171, (-0x6b251c2a2ad3680c6e6aaff99676ec5d21a777f14524161dcaf91ba2), 0x2);
    (true, 0x988577eb6bff9483042c4b479e5cd91e720c149ce0d1fffd5260a20, 0x30e7e7af04dfcc6103b2a46e4eebe29717a97beae9bb01d0cdea8be, (-0x66e62837db945b2b3956a80a9235b823d56653651f3ef736d60f7a2), (-0x224dfebf7096f025648602b84656beebe4d3394bb902514629b70ae6), 0x2546c1e2dacdeab6ad43d721123ca43810b2327013fc76d0a8200114, (-0x9aff89a8fc547da8bce5d46ad9848057ec81a77cf7fa756923419b9f), 0x2);
    (true, 0x3500b33613aeacbbfc0d7138b9ba346160bb204e98e9768286d27334, 0x4246d19d5183184d98bb712140c1b2a29e2232b61f5ab80978e4af3, (-0x77d2e57154f7b51cc96c3e57d262960bfd4fb4b66e552fe892adc04a), 0xa6fcbdd7838bab2e9920b2caccf34c7570f4b9fe3870df13428b959, 0xc36b2c18773f386778cb936d031df034e6e5f3a33e2cec2cbf0fd819, (-0x2433f1a9f97cdf829fa3d9728b5887682b22a7a24e0cecdd092a953b), 0x0);
    (true, 0x16a0b34215f754afdd84a4bc70115d075009397dae03c1b9a063a5a4e, 0xb17464f70206c4b85aacd27fa4e079c3c99a10ecd63fd3a1bf674e4a, (-0x4d5119d3505990d3eaea37280d36a1ea11dbfa7015854553f49fc56e), 0x88c56f6090bc558879b22bd59fcd1d09c6235be51f9e20f4e7aef3a0, 0x1acef790b5f102b2c1aeb226d9f466ee0fc657e7d11cd11141ebe9881, (-0x3853832101fca553fed535a361bb806a6cc06cbd8c9ec13a1134515d), 0x1);
    (true, 0x5e6d258d02818cdcb3d07df9abe6fe9ea2abd22ea5309a8e1fe638e, 0xd751560fb71c096920ff1581f22070fb6a82347ef7f8fbcbe1f48c9, 0x61bcefb9aa10b60cc805104ac6c002dff7685403e8403ab6a334e8e9, (-0x467c71c45587342ea4f755f4a8a6823eeb8782831ec7c8a6587be580), 0x54bd648abb3eed747347da7e913c904c09001937e1396450cb5ebe72, (-0xa8ccb04eb49808e239f1165b8e6cc9da76f838682b1aaf46b7eb1861), 0x3);
    (true, 0xa2eadbdd805a40156695f8dfc88166d7e9262c390809a1fb1f43c7f, 0x25f4406106d06083e06c42a68b961398cd36efbf13125e61025c114e, 0x9f6ac478b096cef6e9ed7a1f84002acfab255e82825e864f9f7f28ff, 0x328fe575285a3599967af4e0eb43da3246b792f96e60764a50122d8, 0xae43dad10b6d75bb8e2879ee159167082e8e740282e91f55ae9a9f3a, (-0x2a05695b5f8a949d89c6493495f1038311f33b83a85de7d40b8c76dc), 0x1);
    (true, 0x1dd22f66d0f53da85935a1ebaab014358253b17dfaf5d1c2435d50c5, 0x1891f8353f212505fbc4c616bc324c2cc7c0ec26557352f8327455cb, (-0x3eb739e30014c48e93142df33ff36eb67542dcbd7a41c9a9086783b8), (-0x16605f84bcd2453790b70c6c2f9c1acabbcb4606f185a7aa0906fcd2), 0x208c1a00c9fd7d8d8106cb0f0cf83fa6a29d165084f38a758b6e2a32, (-0x18112a6b5d27b4da6adc6ee76235886f504d1dcc9e6b553e75cf3f20), 0x0);
    (true, 0x7f37902d8c1ffd60bd057c64b11723750c64ce465ce6040b595a6f74, 0x389b09ebfb666ff5a8cc3f1711343f97fa2282db4376b84560f3e187, 0x3dcec68d072fde481288fdab746f2b7bc6d6a782bf05b5728a93200b, 0x6c0a1d4d326910bd834a897428bb1ccac56d88e1ec65e876287da332, 0xe024988dd05f2741073a0d04bc6506b859ff3db20edd1843006f8464, (-0x24c8c7e6c59edd8cb8c0914b75e32f40c23684da035e8fabedf2435f), 0x1);
    (true, 0xae992f9dc3d9d7ed8088286f37a9cefc3bf7c583ef704f4e16256f4b, 0xae506d0c4af8dd8af3db10ed9595ccea68847a11dc9094c3abc6b295, (-0x30a9d5523005cd6fe15160f119049cdb65bfa63373d360034f71ad00), (-0x3691ad135dda618a20d4d6fa2a8ae69107c664e2799b39ca955070bc), 0x108448d9ea2c88dcc825fe942f70b5cd9776e08fbdaebf135c4d4fb9a, (-0x34801fa8620e0920dcf591dc872375b9051ee5af3dfac62a74b34991), 0x1);
    (true, 0x3d0660a5f392b420869728995e686a5928da059af7177b73e1af49a, 0x11c7337eaa433c9d36ea2fcf2fea685b3b003ca243c3fd40a5818d, (-0xaac5f92c246f965d8f4cf1a762401e3a1d82d9f0a9284409eb07b012), (-0x1f4da3482f86350c669f48cf83e07bb9287b31ec0053476d23201d39), 0x34cbc5df6e94ae0155b9923b484fbc8cc7c721f07f6ab5a20a2a4236, (-0x4a361a8f605332e6bf60cd0c56966d73f810b8460be79975b557e973), 0x1);
    (true, 0xc5022ed0ad5e6ce2c2ca4d3b1cdb8ef19636842633582cae1f04575f, 0x5639a94256a19a16f4fa1ef1180d12b863e81d614ad6f5d778bf67db, 0xb1fd65c98d94e596277ce43aadcf82b2413735ac3927ce14ca4ee265, 0x149ee5e8272edd08c49805621065ad376cd916a7ec0c229a26c6f7707, 0x197f53d7b664db2f0ff79732d67dd444da273acb72e0cb5c83321cfd4, (-0x506ea36fe8a0fd5a74bb31dc803d75251353b99b88e6c5767d3c04e2), 0x1);
    (true, 0xf73164a278f5b99fa460f4c697c5314fcaac853b292d713c4a0a5f21, 0x5b29c9e969c633e590a21b3de3c5157a1a2aa1275f81f21f47592a44, 0x1a7cf2c15ddbed3d1ff52b6538440c7b7d0d45c214f2ad489b83d90f, 0x3e33b847e49da350cf2f0ab8188b6e3741b2c6e4979a9edf435b0d6c, 0x11f4f4f74fd5fec9e154fbef1f4f0eed725886c9a8fd88f96a8b335e3, (-0x5c8cb842b055abb751124b0ca5b7152d2e9c79fba2a1233793e47563), 0x1);
    (true, 0xf2c7857ba0196a5fd41362ec899398be7bb16ab2587679a9d9bcd04e, 0x904ed78edaee6746c907b3e1fbb4c54d021c4edc2eefb55a974b1291, 0xa38ad7aea25b4262a654df99c6d19029fe20cb5e235d96976dafba3a, 0xdf110828392af721e6dbcb2fcc70d42d44242a87e66d37b3893d2f7a, 0x1ab21a378f8511633b9414ad54feab30cfcc1ac204442b23872cab3bd, (-0xa89aa4c4425a3d55986ab58efe97729213d038c567b1eb40eb2ebb4b), 0x3);
    (true, 0x134f49f68ea3c89295fbc0759e4d9dbc7b60a00b79197783d6c2375, 0x62da943f95dfbb6106c772ead90cb9b622bd453e804044849d97d, 0x628a5d0dd6548e68e68cc71d40f0d004af53f9b5310c2462b97de00c, 0xee7d419a015d3840adb40f2a01071fcfcd8710539dec5f0230fc99e, 0x13120f534bfa3b74fb41c5242050e49b0a6e0ec242b9421cc9111c33, (-0x1b9580a8a4ddf98f5e59880fbd1ea7d987d37f0fcb0ca530de3e6afa), 0x0);
    (true, 0x386b24d29edc345fd24a349124a2edf45410427cf380fb88a70d58f0, 0xe5fb45f9d405ebe8be7cc40dbbb6c9093cfe995d17d961fdf9bb313, 0xd6e40f396d59a2c4bdc58279282318f9b8dd3c1170872dc523eb044d, 0xb948927b1a0a25be8be442f36b47412bb30e1c78ff4b000e589613c7, 0xa7fc3abce871982be5dd7adf0cd43362e516866f53dcc516ba1a0ffb, (-0x4bda2bf11eaa3f1bbed6b940d4758c03f23142a136b385ff2c5e7beb), 0x1);
    (true, 0x15880fe3e0d081cc9b31207d8c5052dc974e16d2067503168d8795bf, 0xe9568c3169844343f6c3325f11452179038a27feec92d1ee495631, 0x7a442119d1f86aa882d37648acc21f6a62bbcdf6af2129b6acf8265e, 0x13a2e5234fe01fecf6e746718e6996a36f46a717268a3253e0ae8330e, 0x9c1bf717e9cd8fdd64edc8fb1d7cd8b8ec03d9e7a16faeeb62119624, (-0x14a6dcbb3ad8988f63dab8009230f72dc1692954ea8c97e801577800), 0x0);
    (false, 0x51aecbc484de8f691552778862d0c92fbcddbfbe1660536954204659, 0xe07b0c1bdc7aaec9c68f029bd54bb7536ac6b1fc548272b4cf7e0d2, (-0xed68f64d6f3f9dc54b64af8bc32ddc60039d1f69760895f3fa2b738), 0x10d5ca08220d1270accfdc524d3b12f97de386d3bc41416b61b7d9412, 0xd5a26f7e833da080ce6cd9f67adc46bac60c7d8b2ee3e253b6e65323, 0x0, 0x0);
    (false, 0x67476c6c556b034d456a8c0ec38caa5ec9fdbe831318670e9527ed8e, 0x641517e20157de5b4a40ba2761b6e363cd874f2bd58b1721263e5ef1, (-0x43602a368ac5df702b790122ce4c7edd7a929ba165b2439aaecefd52), 0x6eb5999f4d4d6d98be4ea1fe28c83eddd1d59f48a197fe2e8661a26, 0x4e9908ff1c1de05b6d4a69e16e3fc37ea055a2d3515c8ca65fb0095e, 0x0, 0x0);
    (false, 0x467300d9bddef2aecb09e780b1fe92aa5b903d89e4339ee5339d2399, 0x1695bf34a0591380f0bc731d4b40a90621847aa1b67cf99fa2dc94dd, 0xaf5653e2a43e899cdf755e0aa7276a8fce48cd03400728b319595738, 0xaf009c8bc103ecece3851e2ec120b185e8434524b620ae6c2300d88a, 0xbae4a79a306de6751a0e8d7f88fb4009c224f7f631789a255bc0c8af, 0x0, 0x0);
    (false, 0x478f3e6bcbfd8eeea3ac22b7d2a6aa00a06517357583e7f09a4d54d6, 0xb951877f483cb934da1d505f7f9e537786dfd518c336fddf049767e, (-0x20edafe0acf3d7e996d3dbf6c6dfb0f23182ab2f5a80cb66ea9446ae), (-0x78006885e00a841a6ad7e984a5687d775896a2f4f5983be83a4bf5dd), 0x784230f604a6f34fe61a0eca9849197c2e4cfad81492f691a2839fbb, 0x0, 0x0);
    (false, 0x21076623ca9e253c47c0c1b76fd5d87493436873d1149762c54c1364, 0x2748b1b8048dc4359ecdd3760ccaa781af9f55238a5321a6f5cc8e8, (-0x506cd0dd269e78df88241def986120dc86a5e19f5ec3cec48d65978a), 0x7676a939a02c6264441a00b6871e1bee6fa500bfe383617baaa41005, 0x837f8bf483bb0534c14702c1f21b4db9cf19b41d49b8c6b3ec6e84bc, 0x0, 0x0);
    (false, 0x6286c8a690125035f617506e0e0642937f3a17e50e2181d89dfd34ca, 0x12cee94d8e2ae6aced22b9836b4df4e18ee29084a32fd8bd972224c2, 0xbd2c93fbaa8353feb039725b10220fae93c53c3b746071dc7c8081c, (-0x396f7ad6f33d7e0c1756f2a51ece4e9b4e814d018bf9136a608fa122), 0xa2aed96231a3785ce15c2b392574dda46e5f6f5384f705aa9cd002ab, 0x0, 0x0);
    (false, 0x5c7dfe00d5baf8d72f3551777ee688e0735047293749abf9c885b039, 0x1978e2ded9066d5b8c0d7c2b71d9ec3f95d94cdd29a4b34cf9a6ebcb, 0x2486dadb662986a8c99e324e1988d235da80a66d7669c0f839c9658f, 0x349d627c58a5c322502c7a7aab0b7289155d5eaa8cae4e9e27daf6c5, 0xbe2df7138f1893b61924e05aaa175df979dd97670ad98358ed2eab93, 0x0, 0x0);
    (false, 0x1c5a2ad9df5924fde4cfde670058411ac11d6700d7a7ecae708353d5, 0x7de7c594c3f9da269297d69fb4b61f42c9855215b5e2714d5139b56, 0x31dee9a6b95eb1e4b429ccf9fda51237aec4911184cd3445ccb6eafe, 0x77370420172a3d2c0f73fb035a4b422ce1867f969707b59ab9ad93b7, 0x62488fa68c0373e8560e663f87f1f3a3a1adf58b6ab48b99d5c52ecf, 0x0, 0x0);
    (false, 0xd37cc59f6a9ee45595f0a0a2b4b4f44bfb2a0efe18b52c547274c7b8, 0xe58f97553b2fa14ac8843f5845d9179a3ae83ce00051bdf40b68cef0, 0x10320cde729d25543a59e9d2d858729e6315c0179b1f33911af24ccd, 0x17b574958158f5604d0873e7f3cfac8b3e3446488f6fa2e591b500e0, 0x17e62f31ca6920be06d8c21f055db2fb48b33e3ed1ad24d7f29d55b33, 0x0, 0x0);
    (false, 0x21ea41955278a3a77bd85a24545c61264521b8366110094d5d397b9e, 0x5f530f87b7c57e417194f9fed0cd0e33ff5d86d650ceb8b3d1e40046, (-0x4586fd4a9af6404c1e44c6cfeb4ef9d403228f60695efd6bd9a2edcc), 0xce4c89ff9fcd8669f95740fd1ab2352b89fa549216b3fa4f4fd0e1d, 0x5b36d99fc66ce299dc1699868138e398050aa97800a34a602a5e319c, 0x0, 0x0);
    (false, 0x93fad1146bef47000a8e00974b6e4cee16222ee3fb8ec0fd07a0b7a9, 0x27643e7334edb984a50eb6713739245a02e97ad2867801e8fb204cb9, (-0x3fb5af053bb5ff5a27208659a3596afaa17368f9ae9e254f4a754715), 0x401ec9333eacf4aa1388d16deefe603beeefa5d42ada23d3e90ff888, 0xfc373593743d292a0a56afa0f8445cf5097dfc2fafa2eaec6a7f4f74, 0x0, 0x0);
    (false, 0x5240192a474534c7abb44f1c7e230bb06951b745376e9a99a3aeb62a, 0xd245cf887458c50fd458a2ded33b573fb448a28ca9b63a5ddf416577, 0x20359256f866416e5119cefb57e24ef76aaf22b50c019808d42eb632, 0x1e9b8aed355f6200c87ae4f07a5e5be1e130a793b6447ad5df65c322, 0xe49f4c7f5179a2106a33785cec3c02a660ced72a90e9e5a034e81b12, 0x0, 0x0);
    (false, 0x3e621f791a978f0687d434d439ef32d0e0be6595ff63328a48280991, 0x1cab5b5f9fb7084fc41ec6fffda1851531fe4e3366218115814642e0, 0x76bfa53367fa3a37b866a31514accb05fa1394ce6d9c1aee6195b638, 0x723ef6c9cc97aad1da1bb1825c9f9b766df991a51b05f29077e79e59, 0x9b3a5dcff6515e4bc988ca39a42470777f447142add500572457ccab, 0x0, 0x0);
    (false, 0xec87f15c789c78d77018cce610aeedcd21d82ce46267ac2df030ee08, 0x86d1bd6fd35e00062e8a48e31aa60b0684c2b16f51952766e1384501, 0x2823550ca9c89f7c300f4f0a6348690e86ee9c51353dced44b98e421, 0xda2f3ea8596d6abb5bd3feee8f2904401a344339e381d974857cc7d5, 0x1b9257c0e836b10fe22ca78d483dab5c71a7d26e0e06105691e588e51, 0x0, 0x0);
    (false, 0x15e01b1a3fb3cc802fa6444e342cadc3e3c728e08e959ae03200ab3a, 0xdfe3002537b8b8e8965b5f9ba2267eaab27bbafc298e41597a9795, 0x88d50f7cc80d444f35739f48abe5608d976720c2aa3b737722971c7f, 0x145948406b8c41279b256a24682a16ee3f003791e45f1802f0ea1dddf, 0xa4d0469bdfb91959de9f226631cbfb461170dc104299bcb08a11f149, 0x0, 0x0);
    (false, 0xa5e402952513f3278438088199525732c9c7da0a62d579f168e2b801, 0x1f6019cdbe64a9959d6f875bee21cf030ed9bc1e3f46ea456c8f203b, (-0x540f1b1ea3cfa3c95785b4ae45a69ed43fe252cb3b6ae19c4428efbd), 0x289ab60e0c42c07ceb1ec4e14d5265e23cd6ec7bd0aced43227f12f2, 0x121a66d9898cfe0e9273e09065a847cce80878d06b39c2cc09dec8a1e, 0x0, 0x0);
    (false, 0x9a7f979d8bb8d4302a9ac17a751e93cade557c79a22a13a788b6d5e9, 0x2423a4ddd3d7f1d35e1c40ed6411c7f7cf2733240e7d132219fe506c, 0x99b431ca74382027a8e94803fd7a937babe4f191046c278defc62117, 0xfa1d825d2334a1e34f5ee26237e2c1f1a2b40f405d3562cfaed84045, 0x1619e43dc64bd0a38065f5501b91441dc73ad0d6e9f87e490a433b907, 0x0, 0x0);
    (false, 0x13df96ce515de883313d63e9c6a3a3c88275372d3ef1cd2b3459d6ba4, 0xc6a65038a7d3485986fad84db30a2a01a5186e9a07f996554722a0b2, 0x2a06498bf76b9dc67d59787ab44c7287108c617b280f3ac44c5a1c56, 0xcadd958bc4867b36f56a95d12af5c7467d928f81234f57230fc3e504, 0x1e3bc9c23c653deb21f34959c579b7c365fe794150d9fab5cd166e786, 0x0, 0x0);
    (false, 0x108e963403300ed3208ecc846517b3d45cfaa8136872302136a8fcfec, 0x6c24c68f0900b8a8e097fc62d4a923fb4dde33f6309afac310dc7f43, (-0x84fb9664977062a91555df85b497aaf29e5ef83a6c4a553300fdbcf9), 0x47fdf7460fa04b46d776e2fee5414434c8f8115935cac04d6a7ac976, 0x101b8f5d92d6d245a7b74b54cc428a90295f01f910154b298ca65cca7, 0x0, 0x0);
    (false, 0x18d82cda558a0e6d1f88f6aa523866a4baa9247b4d73c9ca75249e9b9, 0xe8af9a816a353f98258eae65bd6f37ea5c6dae863904320dc568ef28, 0x57f018748171431885a204cbd48a8da7d74c76a1a8156c549b4a9591, 0x117d776379807cfc7a2d71e5c65befa8f0cff581244deb26b6f2dfffe, 0x2473899d5aa9aa858d63ab1a1e1637aae33701b0d6237dd08e23bdd95, 0x0, 0x0);
    (false, 0xedf4eb8c5afe813ae82b9c1d886983c78ca09222e3321bd917bb43b9, 0x3c931c36e8f37c4c3d238ae1dc1d0e97ba168e2e7fd0baa93baf69c9, (-0x4ca765da66780da2623efd5375dd2133c929208517f1562ae923ea6a), (-0x5ec49a7845fa9c9de354ce6358ac3174719ace2f3e16f431234af3a3), 0xf80e3a6814a27152ff2cfc8363c280b04a92fe73e5b615f43e38522c, 0x0, 0x0);
    (false, 0x911e898c28a0a0a991cebf0b35055879ab8ac924ad857221963649c2, 0x2dc47a4cf9871e2d6eb65208778e78d462db7aad49cfc6ce422b3568, (-0x4096d62adb204169a79efbd213f24ee8148cfbb23c64e5dc8555ec14), (-0x19d8f4f3e076508665c51a87ed79e3c5d15fb90c5096a6c1fb703f56), 0xaa32f452365906277f331edf4564442da41c847be331ab14741f2e6f, 0x0, 0x0);
    (false, 0xd2426a7cc7f9512f264b9ca80a0dcde620449ad088fbadb4d7d976b0, 0x668f870d8f0f934f91859e18eac9fc1fc17dd912422accc1fe2bce74, (-0x1084798183a5913581a357b5a9064ea4e1696d3a544efbb521b6a9ff), (-0x3dbd2093df23e31882827771564e93e22833ee9cd58c776c66424b16), 0xcec1289d0f7fafde905fcef2b21f8174abf5a94ff6896e8dc57669d9, 0x0, 0x0);
    (false, 0x2c1a0252ac4d0b4de5367054d861d017881e45e0cf76a0baa342ef2, 0x44474829ba4985a4ed0cdd564ba22f98248417989dcba53bbbd11, 0x61effabdbe3013f4a0165f1dd91a4d96e8d084505183cbf1317a530f, 0xaedec5893ebc9e13b3f2067bd18b42426087827948170e13e15ac667, 0x74e6a71ed4f1c70329bd5b9ca63fa50de8610d18c4270bb676323aeb, 0x0, 0x0);
    (false, 0x8abbf2d504927c22789bf3e8e6244f96ce61ebea865708acc6eb6646, 0x18cdca200a16d66fc2e1909e5d4c8df50d8a6c4dfda8863350ab4266, (-0x5fbdf897476a5967a2e41a5991e3bdeb060cda5d3d8c14b22b9e2332), 0x41118136f4b6a22e40abb0ce17a6f8968a2265fe0e70d7d9f7ed0903, 0x1121cdacee1e7c8ec4c891513a9b644559c5569d842109eba39fa122d, 0x0, 0x0);
    (false, 0x1537427f092ee3ac6fa78251f514efb32e1f5c502d82dbfa08ca2b40a, 0x9f9ecaeb44a1a697de010f0864bdb4884051e6c916e07099c7faab97, 0x45de1d784778a7dd788952d850af2a548ff4637e85490e7121a8a63, 0x8228d008a65981ad47561649f656848c2be85f1dc9c18fc221a4d39a, 0x1664191f5beb65747df9f24233b212886dd7afbfcc2feca074d6c279b, 0x0, 0x0);
    (false, 0x48ac8e9e413cab4e798373ac88ab62b6dac5c56cc9e555b4090cfe7d, 0x3a9319a5d3f38ff23d57d56e8c21dc0c2b095d533a550517c59dc81a, (-0x1f12e8b6948c7be659967e2478f1d32987fa6ed5f37a6198a8c87f3d), (-0x2993a7eac2d3bd5e4a50bdbec842fc0b4e58c2ac1c6bd979b21d9a9b), 0x87ddc9af8176820ef80c3379eecf4d91f12eed1bd0977f3c0fe4dcb7, 0x0, 0x0);
    (false, 0x23e0a85664c9b3677d891a4349ddc16630b15f08a6cd19095e7377b6, 0x6a82a90ba0739cc30c63a976aaf57ef8a1d5be38c5b93344c81017cc, (-0x6856d256f3a639b281ab83972e1db63cb51602b37ac7dfb27b90542d), (-0x47bac4ad717627012ad32197b068b6583933adda95aaae05523ad855), 0x69b993cfda2f52164ba132c2a4c121a5137d06306dfd4cb5d6b4aa0b, 0x0, 0x0);
    (false, 0x20737ea2063277d222229af330de61f40b09b0e52bd7fb4989c1f4c0, 0xf7b8767fc0d69bffd361eb201a7021a63af5e6226d2b15c6892f5c6d, (-0x3f3201501cd4e734337de63ba9cc28f398c1034c6b4b53af55bb66b9), (-0xff12da672e3db100f852a4b4cdf48d7018bc87b0e549cd9188af8a9), 0x12876b328954a53cd81b5de53a1ead1b9d7a4d78563407d198593ddb1, 0x0, 0x0);
    (false, 0x593c5f191d73ba3d995a80837c2b7e02f99cb22526b020f61f3d6541, 0x5945b0a199efe24b89098f130f36f74e71efecb1b9471a63ed3eebde, 0x9e84822c2d73c9303b670df163ec0d56a9cef858d049fc24c6df2f0e, 0x61cd93201210685462c60ae4fd4b284f0d7fed59d834fb59e4177577, 0x12f58ac642b936fd45267c4608540c80d6ad0475e5a142daaf99aa775, 0x0, 0x0);
    (false, 0x1ba05b706e94626285ffcc7a6e83d8abd5c752e4442a54a1440827645, 0xe111f471f6e83ce7b117b7a270f769698ddcf4da5f553b9d257e4481, (-0x96af916456b73c3987ddcba5a1cf6938655daaa995eab740623811c4), (-0x618dc1c061438c526ec66946da80610ea08200f138a3b8e299d663dd), 0xe446eaa096812af0b398a2935e4a2cb2431e1f7d2e1c8ad6b28fc4d3, 0x0, 0x0);
    (false, 0x13cd8ef22b09f031932a2bddb47158065debacc9258814492023e7540, 0x6e6d290be1cae577a7c431677c3c3e71f9471107d6830f59aac9e015, 0xb80f46ab744c1300644902d9b922f22ccce53614af79a01c7c939f6e, 0x179140f27bfb8e28af4d8bf016c8c44ef31561c1c63a8d5ec3f646748, 0x2155a231aa5c212cf7e53b29fdb10f3065a22d4264e34400087a9ac70, 0x0, 0x0);
    (false, 0x82646d2214f574800cf0fcdddcc8cc5ae82071a70043db105a3998b6, 0x3f1cc6c9142940ffa5ae428b1842ef551b69c23cfbb014eec7eea281, (-0x1f64181add74b890d33993ff5275b3bf3407f4443d48612706b8b6d2), 0x7d1bdf17c01283ddeb9ff6abae6b7f96a78c837312cfbe630250abd0, 0xec80616ef71588b2bceacee71e5317ba77f53348f26f187b403bec43, 0x0, 0x0);
    (false, 0x7788db643493c1d9f7d9549032243393677fa68a498d45eef324248e, 0x1307f5eeb1aa9cead22f47e2af125a10ff6553ec44260089f6919819, (-0x554376956eaeaf6bf851c0166e021a97c3dd151ab6590b8ab2666b73), 0xc5b4e7945af6beba48d90002158672759fdebe1804744703c3218464, 0xfe5347b9d08aad7ea14e85ef98b5fd4b52dad172e3add7c7ed0f4ce0, 0x0, 0x0);
    (false, 0xce5a5cc03494c1a13ae1177895668c5f3624351680752a5650b76d44, 0xde492846651b29e14c0e1ea21653bf2b81e51665f1feac6144354b2d, (-0x144280c5df22d92d15e88dafa3389e92568127349a5a679972801a35), (-0x12eab391faefb0a018348a0f4c2de493d4592a6f6404adb10c9ffb9), 0x1a6181a155bcbd73ace75c9e88d6606c72bb618b37510f2bf9f797d28, 0x0, 0x0);
    (false, 0x449d3a6bc1cfa0c58f4df28d555abce79099c4d875fff230a81c50f3, 0xbfbb2c77ded944193be259fb68345aa95713f533ebf4c7ec468bf41, (-0x559a5d20180c75c6cb6d1337870c1e4b9d053d7825e03df4928bb7ea), 0x494e2bc8d144e996dc48aae1954455adb53b528c376636857d0dd1ba, 0x8b0f0af540a15eef1acf0958b613d8287a26317d160163918dc73041, 0x0, 0x0);
    (false, 0x18ac7e9dfae0a0f68144a62349643a92d0e5d4224e6190f9d8fb3b17, 0x1cfe95cf6f3e1b548de9311c79e4536e2dba6b04a667e7aeba48ad3, 0xcc3a4ae8dfb9516b44a1c39ce913bc31bf948deffbfa8c4eb5caac1, 0x49af5080987307c0011ba7f67ad31db631267c60d54310ef90e4a106, 0x6caeb625dd0ca32bd77aa270e51dcdbf50bf99ce1f8f57f67954ab92, 0x0, 0x0);
    (false, 0xab32af2e1e9abcd7c505a7e69e5ba29184b3e54a090b171ae570a9db, 0x6d154e7d3ae60c0c7a625190275df54caf6ca49ca8fc87196e8c7562, (-0x59d7c375ff50a5a24769256e317221902ba53c03f6ca110eaa838bd0), 0x636e100036edc2f7b86efcab64f4a7fbb9fa363b9dde46a6bf898ef5, 0xfb455268c843890717becebd37b3679eb4724494cea16c064744b9db, 0x0, 0x0);
    (false, 0xd0f0a1275a2b43f86ea49294960b6eaaa3456aa992133f9c24ba2d74, 0xd680c5233fd4090564351deebba5f188c6369d6995731fe199adc9cb, (-0x6b923ad4b63f3152a2812512648eb22481293df74f8d9d9c11baa4b), 0x31a6163204b17832aae28719fae1ecf30c98b5910a2e4e41ee50407f, 0xbc4c801da15d5472c0c415d3c7ce59fce9a90a7caf78493ccbe1be31, 0x0, 0x0);
    (false, 0x13aac1f751c0b6c56e8e619f8fc728051043dfda31545a92c3938e38b, 0xceefbd345998e1aa4ec4ce0eb6be9eef36780cc13b8537aea5191a39, (-0x7f01fe920b99b00e2b652e9b10f3773eee7c2cc691f0b2a25d4a33d), 0xc76863ee8b0c3b15839cc0b517d64e2509ca743944667fe6c3bd3428, 0x1a3b4e8ff2424aa1f46ec154ce306e8f615fc4c5ee340f87759641926, 0x0, 0x0);
    (false, 0x12dc370a650ca6debdcf3f4516a3cc7212e6dc5f4feae8b011521e97c, 0xa70be0739db61aa69696a466710d3ca314fe947b00bf428b6e277d01, (-0x1d171aaec37379fe36c077429ea950ec501d9753cf1bb04eea1ef4e1), 0x371c8669045f4d16f3292243162bc4d0a817b8c5c6e0e0971be2f931, 0x11ad6d3900d734691307b87d3662fa0113fd18120889c71400f8a6b1e, 0x0, 0x0);
    (false, 0x159ff69842adc9c591d903104ce9e49f3c2b5c27f6ba43bcd45c320, 0x15b4b9b30a25880e51f973c900597ce98af1e32533f7d05144a574ed, (-0x46ede478d4aeed8e5016fd12a80743c46958fc2a48c01b4465524151), (-0x6ccd7fdca60813d76a13cce4a53575b76ee492387e3ad3b9a9b7f7f1), 0x14223cc99b71bd5a2e48a6e6501faab47d0f70c2746aa4000ee6b3fe, 0x0, 0x0);
    (false, 0xac187eb03d578649b72a8bbf2a4360f679d0ac2b43f4508ff826ee5e, 0x1eccf57104b62570e87901a077619e788e90876cd0fa5832b60d7f73, (-0x5674e3d60e1e5f7537e1fbf0c7da3143c455ed2cd8f2e219714ccb0e), (-0x1a111e971fbbf8d89f6b6bb1477cbf3f22c08997e48868f8d22f4c1a), 0xf893565572e0d44a4e4c56a50a74338f9507721441a06a4b024f7c40, 0x0, 0x0);
    (false, 0xccce9a53246c03e235b0390c84b652b6fe75d22589fcf6030ebe645, 0x94e2f8b38859e906148768aca519455ad4669e5ae5172f82930ce1, (-0x5e212e7691114758c50089168e8e3841698aee83b6e3a6cb610dfff1), (-0x373a4444682eeb7755d5575fd0446662fab1c377341b80d6587b1570), 0x46aed43a1320797c5c7dce9e92406dc17f069b262c3b22a4ccf053c9, 0x0, 0x0);
    (false, 0x67d4749e0a7b54c9254dcc3f81e03be7e2a3207c9510f3464e886d8, 0x11aeac35d792d469430cabe276b8daea6ef49aa757db1cd38e634411, (-0x30ee840a20f2dbf58bf2f76c15fa852bd13fdca41b4f7e75299ddbf6), (-0x83d0ca3b885bd4b30c61aaa6798bad8d0a633d27f296788df05ff680), 0x3e610f3dac6fc89d3fe7dc13a5ff37383d1eaa53b618eae04605ef8a, 0x0, 0x0);
    (false, 0x11ea6c8308ab71913146d9f703f19cb747714031927d40f795430824, 0x119496ade1ea501e8cfe5f658ef09b6593eb8e9df0e2a716b6a872a, 0x4eb272b048929564fb9ba2f04e0d9401ec64050faf65dfed06715167, 0x948a0e02ec23f12f29876a340fc40d0d95f0321c48264a479e973be7, 0x6a73f7036249c680549b78cb430dfeb9215328d503fd5eba8bb1748c, 0x0, 0x0);
    (false, 0xcba5d3de9244bda5f51b167089bd2db2d98245f3fac48082a6887904, 0xb992c04f9c0cee009883e745214aca6adac79b18a51e7b13dee1a9ec, (-0x175902c77cbef9096ae680047dd595343f95193a04fd8b93a804d8ff), 0x569cd85cd7e3a744be0037215ccdee6b13950032e6e83d07b18752f, 0x105614fc5efd2b26307abf4e0fd6198ba3f327785adce694241c0b64a, 0x0, 0x0);
    (false, 0x3a237426a9dfd0778211dbb2a488e0af8fc61dac9b06345beb045f42, 0x2fbb77752d0e901f79775597dcb62658ad78bdb5515ee96014b5e8a9, 0x86e3a64b005af1d44bd16b2ea3413a13d9daa4ff1064edac9828a16d, 0x1659b807583326373f4bfd2167896aff0fb3778ec0d35af01883c044, 0xc364d4d526692a3d245f9b0d3c64a11342fbe041bd37e91afda20035, 0x0, 0x0);
    (false, 0x8198f73daa64e224d887439f87e0c07e75d41b0f7242049a882bf5, 0xba0477ecdc9776547d5cac3f946985c17822aed9c77d221b5c4a573, (-0x524b934ad3a91146d05bbfaf51b56baf6f76f80fd05b01d57d4b41dd), (-0x5425f7f07c973ddbf9a88225fa76edc6bf6275614113f2205c389b53), 0x3ce52fe5ea67cf76813b9af0211406e525161c4418bb54fcdc3f0c1, 0x0, 0x0);
    (false, 0x14faef9d6960abd96b4eaffddf007802ce70a923d33cbee6ecaf5251, 0x26abdb0e6a0c6a097d5edf57949ed9af2f6f9bf1d6029c4f902ff08, 0x543f0baf333b885d3485d42e37914fae87c839675fd8785c63247386, 0x6ebf61c592a3a21ea61759263c463d86f83046f3775f51db10cd68b, 0x5539bbcadb6d582f5d9ea95acbf4ed32ce07a4d43086711a2add0f51, 0x0, 0x0);
    (false, 0xd0db3fa7cc8d309a3c4cb995075d923da038f129dbb46de9fecea50, 0x534dd958df7317721869e5e2ebbf68f17fff52c74caa3fff4a19cbed, (-0x3970ce2e95e944de055dbd3b314ad5f965ad9c646069defa4483e079), (-0x37d957759017128ecb3195b05a678d6f031489dc877c290450678261), 0x4e2095da2fdf1c3a1dacadd3d43191daf92f01ed5a4ced37fbdee804, 0x0, 0x0);
    (false, 0x22ef08c957272103e419fe0576204ccc138de7f1292559ea5a3a7ab6, 0x14ca918865c86ebe80b83e79ad05c7ee5b634bceac43ba40f497133, (-0x8a0459ca301dfa4b37ed0b152750cbc09eaad979f7fde135753c14dc), (-0x3475fb85ea9a4aea80bb93d8a22622bdefd500010021eae83b5145c0), 0xf208433c0e5e56808d53fa3f6bd9753610b8785a17b8354aa418f3fd, 0x0, 0x0);
    (false, 0x252c22fd1316e4dd3a8fd58e587202e3996da5c170b62b00c7582201, 0x52fb4126e44ff3636ea7ef9b56ecc8b8b5cbe293de504180721c2fef, (-0x949acba6c0c866ef5bbb3514260f67490ea1e3dd9c93812f14adb449), (-0x96edd3b098b1ad1042f4ad5ad7fda155537b8e454b1bdd24a2576d6a), 0x688be7433822b18630dbe54f309bd530630ebfa6779c319dd2cc430c, 0x0, 0x0);
    (false, 0x2d5476f7f882bebd8472e95479f4677cd327b7796237acde1e7ad3b3, 0x243506481ab14a41fac8f741c90ded1d0f3e8a66bc2a7dcd76bf2013, (-0x64108c2dd6dd3c383086fc2091fcf22cf2274c07b32134f33dfe85e4), 0xd317c670042666c1630626cd4e748f56fe63c535d2a712338861fb, 0x1c952a4b05b7f2fbba0c27538cea0a2b19b56df15b2128cd2f305a88, 0x0, 0x0);
    (false, 0x31ae6eade11be2cea22053f9f78b46cf0fac0373c3a2786e5468b8fe, 0x76fc50bb16e1a35c76095bad4d855c51d210cf01bd66ff7fac8ffa6, (-0xf94f5e9cec76b82a40a479532d65ba3ffa2b3336d4e750f13fee422), 0x222a79d2bdc8ba541ba5dd5bf2be72825e93bd3fcbbaac614225dacb, 0x6672d576a66970a9f2f0520fc4e194e38845ba06bc34548e68cc455e, 0x0, 0x0);
    (false, 0x7f1c390665c36902885c4a92eb9c1c9dd0f89e9211040f1f4c7d3fea, 0xb3f07b1197d8ed460f1a3333ae90406a1f9fabec6d45a9ded6d5c8a6, 0x755d595fbf4d9f07c0bd5da8fcf4c3dcec4eed6b444a475f871c047a, (-0xac649a950d38325576c062bc0eed640011dc88ba28915322e60a0db), 0x1632f7fdd7f6910c0f91b3166531d73cd12b30b6c1b6ce33418e14145, 0x0, 0x0);
    (false, 0x25a54a40a21e22fb492b7aa66466a4a9fce1c934577db39bc9c371c7, 0x28ad80cc85c7ff505f3ef2ee5eb6315db414f16f13052225fe09efa6, (-0x6bc6eeb07eb5235ae12dd699d73b0b595dfcea8557c151d02117d27c), 0x3852e329c185a154ae45750cd888a52d80ee0ef62b5283b102570da, 0x229bf71324775f1a7fafabe9d35f9c466e8080825ab911187611a76f, 0x0, 0x0);
    (false, 0x1d2301b048fe51c10ef10983771d49288f25e11c0180a4b9bcc656c93, 0xdd82ff31c80fba6c19d5bb832d2617c79f16c87f71a7b781f815418a, (-0xb08c3c35b0824fe09fb205f538b19e7e832f3beb878394f40016727), 0x106939cbac9e8ff7c0ff30cf271252e9ca30472dd100287aeaa261e59, 0x27790bbb67774a10e54b112211d1a834c4f8abebc9ac74e7bc60aa54d, 0x0, 0x0);
    (false, 0x9a70ddbc04d1cc99af697399794190c730bbf917a6b13860c14109e7, 0x2f475d36616b7600242efece5c97145a234ee3f6e69716c7e6872cb8, (-0x27e110ed640cd825cd88a955909512fdd392a89a3f6acb1394ee6e32), 0x1f444bb25f0e1a3ba84a6a78eb0b79a9d609295a80d0984a76070179, 0xa2623ebdb320f702d357c6ecc73bf78d39e6709dc55a7d599127ceab, 0x0, 0x0);
    (false, 0xe7558ac7740d652eaab9ff8a259af7bbda95d0c2408d17d6908ee4e5, 0xbf4dc4619b39ab175e554dfbbfdc3df58348918a0952e9b749446838, 0x7e3ccd24f49b033367ac312b22774e1fbbbfbdb948822fe590c045fb, 0x817a1d4a48bcec598f50447bfa1012b928330fd00014a107b216642e, 0x1b65cf9ba447ee0ac3b913d4b6ae03cf08bfacd874977b0ff2f3fb11e, 0x0, 0x0);
    (false, 0xab3a864bfc83964b39dfb2f437f55ffc60ac8976e223c9151188ef7d, 0x9dcd1c36be0b3229e23ec2c7bc7e7e18da9a8574a527344f6908526d, 0x4ae18abeeaaf06d481b8e80a445adcbf1fbfc8c647617a2d4ab2e1c8, (-0x97363fc29a94e17a9f443bdde1dbbc4ba4da402b9f92884c5af781e), 0x137cd9e409c8d1d36fb4afb8ab68ea62d3c777d6b931d55b895a4d77f, 0x0, 0x0);
    (false, 0xa2978fa7f5208b31e1e636770a8fed25d4f8c56ebac28883e68c2a55, 0x250b97669ce90d45d52de46649161e301864094bd8d8713169c16239, (-0x6d6df866a47971aefdd4f667e6f94b1881a043dbbb719981765aa8a7), (-0x5d5e876cd014d9759c117aee86d6785ae19d2552d8bd45f82a31952), 0xfe2ee1b835be44ee04ffe48c4ff6567c7baae2fa6f84c1a864c80f6e, 0x0, 0x0);
    (false, 0x112b7510f016ba38fbbfd097fddbf1ac3a23696c01e10b0cd12b2c94e, 0x5f5fab85d3975d380c83adf82d46559b698e6db35d5f5c043827a077, (-0x866a51acccd7ea62a60cbba3cf0bc82b3b2720ed5080c794e2414252), 0x1eef40f86fae5ffda3ea94b67fa1b69230d68c47400c6215a38663ef, 0xe395e1dec4073b3f02b34e12cda187d0f69f372ed57ef0ab66b457b5, 0x0, 0x0);
    (false, 0x1368a7d7923c240b4b87928be9c7ca786c0335243b601f5b7b9488787, 0xdab07bf8458f02f042b6829bced0f4d63f59e4cbc483f3c5e5b13d9e, 0x8d7b62cd6c4c7da92b0696b234bcf7450f8ac510fbfd0c76474647a7, 0xc16eb0299e7425be7c39473fa65abbbe7da70319536d2f040f2283e4, 0x2099ef4d9ef12b10459efbdf68f5668a2818b37709b36c4b268c5dbf1, 0x0, 0x0);
    (false, 0x13e083eeb2bf7d1b24dee7fabb4bcf34cf54834e689a9e1e5bf545412, 0x80bf48a319384221745fb23ea3753b8cb3507cb732199f1f17ad55a8, (-0x92a53455ecabf96da917d3518ae9ff6e3f6f363b5369186bbcad4620), 0x4939cddc63f7cd51f01045dd580177fbdf47014c0cd217ad38431229, 0x100e2f7e5c2ca650d478849dfcc8bb4864b529f31082d5e0a2ce7f051, 0x0, 0x0);
    (false, 0x76e60fd0488e14e01d8d751d3edc5e357d04f72cfd2f7814d4403aa, 0x8d64201389d82c157246286adfa4e53578f02801a5159dbc7891922, (-0xa0559f4826566e62337578501e57e34d7e0b049e7307d4bba588d640), (-0x2bd21340b80accca8c349a0838227fb97fb3388506f1b47eaf7dbd67), 0x1b117be571dd0ff14a7d3b02b54f30191134184b8812b8a118c59a52, 0x0, 0x0);
    (false, 0x5c31c82b9c68d50093c9a6ea5b400ca237743e3a6d8ddbf9390ae9b5, 0x388325cf7711b7472b24e7d14a7d05caf445d4668012475b130159f1, (-0xae4d32eea53207679d890098387183dc564bc6675056fddbf3b603eb), (-0x8b8b48389e978837c7e7654207070ad78b33467ddb5e5a53733a896a), 0x2cdc61502abdc1b77a0c0111cec38244a0af03b537849b8ad4cd7bfb, 0x0, 0x0);
    (false, 0xe5b384bc36c538941474c9037bf52059cb2036fe9b8271a636d3613d, 0xd3ed99162b08d7d28ca867f8a21fc6d36fe2ed9f2ae5e5f46f141a55, (-0x46b8e57b1c00b05c2565559eb88007d8d82089da1d2c0c235460a820), (-0x6dbc8f96e4a6f2e1f2e9a6a1f2dff64f4a81f128e7c1fd7d3d360adb), 0x993d15d060be681fef3e93c726d981614faa98a2290a56644a8df9a3, 0x0, 0x0);
    (false, 0x100b088a7317ea75b3ec12c48faae8e25637eb088f8c4bd91c94c4267, 0x83db2c114c09bf55646f460536e5d570498c25eca4e244fc5c265f35, (-0x48f47fa5982f5e195b6ff97a237f2d4b09173adcd0fca62d167fa618), (-0xabcac331f5252e55a81ea354c3ff239edc5ba8069ac7e331ea769098), 0x7d932a7b14a60cf718ece7e549b47fe24626d5e52cb50a5469bd6524, 0x0, 0x0);
    (false, 0x610f6dde0633bfab84857f62b2a598cc9a9caa4e1ae6e6fcf4b0845b, 0x59e44573d80f00573d1b80e9c55c7a92392701be8e45ce20ec4e8a20, (-0x23d4ea41226f800ecc9806edc21ca404721ba44b971e042fd8639907), (-0x2839299078f79931d0f89d48997ef6d48d8c2e0fb3ba8a3052ffc7cb), 0xed8347963586f88a1708b3fa297f53c3928fd2127a34f2a97e9e6720, 0x0, 0x0);
    (false, 0x14228edb76caeaf722a2ca7a7227bfd4bc6d2284349d2ec16e569574, 0x4f9a8e215e4c399281d2a8c8bc4096237eebb68eed9e8d59c337beb8, 0x311cf8ed45df38c7ddc3399eeedd5012aa027cea0eca588dee368941, (-0x115fe48d0107c8b38ded4dc75e9a8a9878de669e8949943b81bf2214), 0x1028e3322d6bbe76d8724fa7b1a1ea69ff3e5645e41e9155c29de4fa9, 0x0, 0x0);
    (false, 0x422dc83ca6105988d0f8c1b00c0746d99366f1732c212ce16a47cd8f, 0x468258a2616f3af7452874978a6c2b739e8e30ae35eb43fd5b4223e, (-0x46db1c44e48b590f68e079d2708003da64cba0b6d3f2da6703bd4609), (-0x55f8c6870335c0dc22bd3c5bb699f8a59b0170bc788c38c79088130f), 0x104c931d8a32425646aa86a5f1fd000b67173aa88281a9b7113fe67c8, 0x0, 0x0);
    (false, 0x198df94602e7868f6ac9cfa5d629b12a0c029ff8d699946a1d65df09, 0x53012fd2206b433d502fe417536288037270ee4eeccad74a9f442635, (-0x2c5b587a7c8769679d54d5afb2953fc2b7151452dbcf113779a01a9b), (-0x722b15bc9d0790a39a5b98e1a1d5138c36ab60dd9d238d8ad703566e), 0x65a5fe7cef29433044d727a28eb09d8c0e24cba534fe2a0d1fd6e094, 0x0, 0x0);
    (false, 0x43b2e596e0be27962fefe7b5eb5fff13e0fb067501e82e5b6c175b86, 0x5169488f3ae891ba4eab5695dd35d803bd38c3ecba1a29c1983052a, 0xd93b32f9afacef1c8fc7e5076a5b620ef060085267a7d2dfc4cb435, 0x16db39541827f93b0ca4901dbec9e9a0a825ef861392b061224baf947, 0x11d1cddc2d1eb6904d6599fc1ef8249f7d9a7206062d7b36c3868f6cd, 0x0, 0x0);
    (false, 0x7c36d17b1498da3eb186f0542c77769729c8eb7235b3f8bd88751b37, 0x39f3b11b0eea21a24e3b536ec74f89ed2e2fa71956716f7585b32cb2, 0x1789ca9a4d75a44c2c3fc0bce7f75e5a15b27039d7fdbd4f7bbb91e7, (-0x19fabee3a01271911fdbbad5a3ff629879a4c7ee50ee1fbbb0a7d052), 0xd1a346fe57c5b3e2f5a3c01aa0c7e0d2f88acf43534e45fa7b1139a7, 0x0, 0x0);
    (false, 0x9a4102848662985270c73e76b491ea626b624a3443b22ed632c24eb, 0xe40b2e217038ad5aac9523508ae9b9fcbe3f004cce09605deaf82981, 0x43e38a0a1a89ecc7be8b8fc246bd95874bc000b2627b621c13a16f1d, (-0x5111d48e7b60cea5dfd689cf152a172b40ed9e69cb069c9c4e142d12), 0x1a476d7d9a7ad07c3396490019a5bbc5d13b47f01b4371db8f3b1ff42, 0x0, 0x0);
    (false, 0xae6324665cd6499b7ca375315b27bc62c472d24018859f6150c6b28a, 0x29f6e11ff05044c8160f9e01e5f490ae7455b133790fd21a596a75c8, 0x90c89c3025ed77c22a0142214a58de58a9c397624d8b1d03c73bf093, 0x18f30e3fcd35b26c7e3df52df2c1049b344c2eda66ffb59b68774398f, 0x17cdcd7b5faed59fe3bbff0e0088aa81f20e876f1e4382d480f7afaaa, 0x0, 0x0);
    (false, 0x30416afbfe7d7277070df8b04e9b45d8ef093dda29a6e3612f522dbc, 0x2ffc292cf053338aa19164a521ea092100bb8ff00fc50a90d9649858, (-0x43e14c903b1504ad460aa03198aafff6e4e9956865e89ef653112147), (-0x1438d4e9e5734289b26fcfa28e42c82b189d0ad1b97d937898bda2ed), 0x9b3f446acb6ecd369018ce4aec5dc8b1aceec33d1b5c889d49182a9d, 0x0, 0x0);
    (false, 0x57887849fbd7b441a203d3ed181021b8a7f95d6e3f824b84584309f1, 0x136a02e1eefc983ff834ca28e735522d909fde47981da433ebfb0584, 0x2a51cc6a012a705ebd4b92810814e2c1900270765828c4ac822d41da, 0x243f144b8a42e6adc4fe88b31a83d10df3f381d1fffe22033f26a68f, 0xaa699fa2938ce5b9002457d470c231692d3048f88cdac6ad89f23e93, 0x0, 0x0);
    (false, 0xfa5b84f7df2d0eec604f12296d484f4506680cb6ed58f27f87316f87, 0xf7aff1dd90f007c3e1076cde6efc2f71d904057b584faf3793a39848, (-0x12165712e3636e5703efb1f0edec24ddcdb3d6c69644beb184afc266), 0xaf943329362112292a6124fa484c290582fe8989d25b784c2ab5460, 0xd9f1756ee3af2de9d1932f02e7cf20334d9959bde8350ebb122e731a, 0x0, 0x0);
    (false, 0x18f88d97995d67e510d4fffb101bdaf7791eda473de9672a9b3bfd5a9, 0xdec6205f4455ff188561246e204384d057eba9b518f20f8506037e5f, (-0x41f97fc5e04a6872fb8ff5ecceff862505154614471110db1fed3a82), (-0x15d528fba92355b0f84d8016104a492006d128e490a11cf2300c4e8), 0xebc9ce47b7a7c092f25ef627eae78cfcc4677a12ad9c5f41dd701e9a, 0x0, 0x0);
    (false, 0x10022eed9d92294cb4fd7ef6e9d6cd97f87787d9116c460231c8e65cc, 0x447b0b96170a75867f3a6252c3de872a289e1ce4d19508da28826640, 0xc28dc507d9526b9b56c13db7408acf8a35e24acfe7791788935a227a, 0x12bc8a0506d1d594c01c46c1d0880d8ba40a2f8a151e39b04bf2e59e6, 0x1d9a5db476ee442fdf37db84d24f24300617a0cecee0a58e1d03d3fc9, 0x0, 0x0);
    (false, 0xeccd6962ec90a4b4dfc60a5c3a44b7e308cb5096edcb9cc807cf1d0, 0x5d4315812dfe87f33e4a859c5f1ae6049b4cb55de3ff8f00529d8d62, 0x1ceb3ec571ef4971f7fb2e4ce96dea9295c57ba44d0f6f3d9e3cd92e, (-0x46b79079f593b1d59f332413fc93c3f8078f6be8bdc8132dba7db25f), 0xce1054fdb3e24b1fade33061572a2cda3fb837c2e6f4a23dba53a1fc, 0x0, 0x0);
    (false, 0xd2f2e6df1eb40cdc5b1a1d815b246e477c93922e170caa90e82c913, 0x44604ce0f9a0deec3416d4e6868936c6503d53b066b5f0860bfeeb, 0xacc9befe123e13b57a2cb99ee383dc26128861cc8a022295a7c3f54b, 0xc8c79d1ff161f1981e95b9118dcf570adfaaf4f329382765da7d1b98, 0xb06e83a2814c79b5ce44a0f8ec46d68fc1675522ce3da3094d1c4519, 0x0, 0x0);
    (false, 0x356cfc04e9fe36a386f7bf310c73f1d5271d23a4aa859230991ddb4c, 0x403cdc26323a14f6489fea19a30aafaea6088107f7151911106d9fa7, (-0x252e5b734fe7188590eedb7ca3df9cf6992e402df140b3744a9d7718), (-0x46b52bb63b6f0ea5a612bee5bd5c87729696db2661997078c0f044cc), 0x1a690b62e1fe82b06651e1f1d1d067ccca80e423b0d722adccdfa6b8, 0x0, 0x0);
    (false, 0x4c83261846395ce67f53d1f9feca2aa2e8e6d9359316999fff963aa0, 0xb748b15858e3e7d8f64a856ca4a21b498e2b9e154f6e4feb254db010, (-0x9b9e039dbbe0a32f5ae1edb8c0c4b167ac7a17b6a5938388827533ba), (-0x51b17a0faf0efcda3c2c7af8d383d26b5009ac65bc979e3c69ba22a2), 0x3c7ae59e1d9dee8f58f4b8096d3402be6726c249d573fa5fd30eb729, 0x0, 0x0);
    (false, 0x6b63463e7bbc23782b12f5cd651012c00e3804312ebb11edbbf818d9, 0x78e12c1b4aeda4139e3942b3f247249c54d3fb94847fe33bc639e735, 0x20708c5af8ff94934ab38e5bf060f6ad73e90da94a5d8e0a8c273e4e, 0x405a17540761b2466acba2089848ce204074b74d3f18c9dda298f75c, 0x10837df738fb1913869ed2bc7027c042e3b95980428e15619cc59b25a, 0x0, 0x0);
    (false, 0x8f6a7520d6c2cc3b21f4171c0e23644e9455aec1735666209994e57, 0x2ab16a6254ffed990db6125265d775e2bc9ecb123f7241734bb434b, 0x1a442e80909bf87147160dc8a017e73ed7e7209bbed70e56f6a50fba, 0x1a96f9c1b5cc853992cc995f2ca74090ff12f826f046f17cb3b3910e, 0x22572fcdde9a58968785ca86cc35de127f62313276d983de51299b89, 0x0, 0x0);
    (false, 0x41ae372a5e86d5d5fdc31261df1d94e9c00243b26bbbee08aea3039f, 0x3a0cd95e2c7ed75f6718e2f173c214ab948859866f0d255a41cf07b8, (-0xace5461afc2ef2a6ef5716f069fe2b6c043a273e42299bce8a66d6), (-0x11aed6c30f0cc9ff5a6f94dd9c2efe36c49ce6cc3b512a29748f1a5a), 0x3a9f1d0e36e1162e2c77f9c65078f0887f6599cde6432a71465e7233, 0x0, 0x0);
    (false, 0x3a9cac66a127e0e6490300dd409d6eb1aced92f1245d0ee8987b061, 0x318c756938692253fcfabbd63dc691ca0813d1877a42ae7ef287de3e, 0x7141bbfc98d8e07203178b437e4b3b84bebb2354598ac56e67066c55, (-0x4de6e890b16544552264cce2916c6792f12c7ad8464f1a509af09766), 0xdc5335d62da5163d7c6bcff90e349b18bc5ec13c61166db59ae2652c, 0x0, 0x0);
    (false, 0x2bae2677304d0cd0d811956eea96ccedf1047496105afaa2f7b1b22a, 0x2623dd63abf58efe1ad1f477fcf847539cf81edc5641bbd02188037, (-0x4d3f554222b8049e647ae286e78df9bf5a19809d8405ad2e3f7221ed), (-0x3b92ff920d7a3ca7324f8c1721fa11866beadc8004bfd602b6814c2), 0xcfb33ce10c5838d360bef4555787d2837e75e0c51abd8b6421465366, 0x0, 0x0);
    (false, 0x535ff79f9b1e893324f6031b1e82f1d046bc9d95329b8ce322671f5d, 0xfc851ee87c27c449e818cf92978ce5941cb73efc91633e8022a54b34, (-0x48db84a17ae08037b78744705000a3509f5931d6c61fefd9d7aabc8), (-0x610de3f6d5c20bae9d6690aca8e34e24011e647796fd7f6a5bbb978c), 0x8031a8d99ac8733e01c4355f58949263b9662dc3eb9ea112db62bb74, 0x0, 0x0);
    (false, 0xb047fe1ece24e011055817ab0873be8bb7724f28712653bd08244c0, 0xd8339967901fe8976e4fc1f7a04ab2f80edfcf5b817bc5d04e49319, (-0x737f7a89dc387bb0beab02990aa0b3ee7796e62b311da48a17bff8ef), (-0x697631f9e92f8b3719058e67774ce70fb0b89a67c52b3946c873f3fe), 0x26767322e713f0d468bfaddd90b8a3b73a4281e33df49994e07ce9f5, 0x0, 0x0);
    (false, 0xd89346b01a388925438cb9e032b80a0b7f2286c8189e18bbc4eb025d, 0xd29858af82d26459ba35cc967e98185b3718bcac9468cb40b251b91e, (-0x88757d94439a7740a1c46984e067d19ef8864ca38eae5ad461cb1e72), (-0x58d8fae20e0469b605652a19796de37a8ae7241004c65c247871fc44), 0x9af970c9e210ab06ef25f925c91459f59d62047ac5f7a99bc0bcd9c5, 0x0, 0x0);
    (false, 0x132b16717eb48cfe44f8adb33de0003229955c51d3ca1d3df31bde3b3, 0x6c67fd7a5d10ecd017d04f69cc735b91e91c17f2c34220306e4c9461, 0x56f60f9f716b20ffd1d3a8dda39b2b1123735298511b4231869304d, 0x77f99d1a8a07a93dfa587d556f372c19900d0f34c5c053d38635e68d, 0x17f4d2b5578cd6f171833fdd69454b69fb299cf863f29f8e8dedbda06, 0x0, 0x0);
    (true, 0x105357be3d5361f30dde91a031eb7c749661aabf2016391c115b0cc8, 0xfb8c49e8dd157575a6211851aa409fcabcc21e7392696d9a9005491, (-0x6e8a2166116488ab9e69c125c96a223400bfbbf2daa36dc0101cebb6), (-0x5c98316a5b281b14c6f24249beff411dd3e71316e528460fc0e1ebc7), 0x2215ee9e715dd5d8451acd6e6cbd66243ccc559b9e39001187193a9d, (-0x1138be7ad4f7fedbcd34818bcf45f8b57b59660373594f7715fc45a8), 0x1) ].
Definition ru0_P224 : Z := 0x7b8493e92fbd4e3b198ba16f65376b02af13f67c755970ac5636783c.
Definition ru1_P224 : Z := 0x3ff7dcb43de6e992ffefc34fffebb389ec270816add27cbcd5a39e1a.
Definition ru2_P224 : Z := 0xc23db60b682158e2733a2f484d644a7da87604c1c55347a9d4e4c3e3.
Definition ra0_P224 : Z := 0xbfb0c7416cef2338924950ea297baba9a45a8c19e56d07522bd2dc8.
Definition ra1_P224 : Z := 0x2a3b0fc55481fe7547493ed752409b4196872e39038f751a4bfd5d05.
Definition ra2_P224 : Z := 0x59a2db6eb892f815d2e402eca1ce1637ec1ed57ee546b67e75d09dcc.
Definition rb0_P224 : Z := 0x56211205ec2e9d382015fc5b47b669b9a905a357744436ba8cb97d42.
Definition rb1_P224 : Z := 0xb66a51b0e2a1220bad6cd5a771a3b5a73c2359128bd73d3c1efc937b.
Definition rk0_P224 : Z := 0x4258c635d6ce40b199060c3b530f4cbe3adad5017f08c4b9fd174b47.
Definition rk1_P224 : Z := 0x97a4fa0f0392421f8dd3135c12fd931244bf578b9100604e1846cd6a.
Definition rk2_P224 : Z := 0x3ee43a3ebaa8810eab0c37658d8341f32955b0869fbb7cda5703fd34.
Definition rk3_P224 : Z := 0x3670cd7732ff75c273f41c099f62aa5f5fbc4247b7c386e96059189d.
Definition rk4_P224 : Z := 0x440305d5f7b756429b82065d299465f477b8825dc05ed341f8dae35f.
Lemma root_P224_ok : rcheck (c_P P224) (c_B P224) mulp_P224 root_P224 ru0_P224 ru1_P224 ru2_P224 = true.
Proof. vm_cast_no_check (eq_refl true). Qed.
Lemma bezout_P224 : 
  ra0_P224 * ru0_P224 + rb0_P224 * c_B P224 = 1 + mulp_P224 rk0_P224 /\
  ra0_P224 * (ru1_P224 - 1) + ra1_P224 * ru0_P224 + rb1_P224 * c_B P224 - 3 * rb0_P224 = mulp_P224 rk1_P224 /\
  ra0_P224 * ru2_P224 + ra1_P224 * (ru1_P224 - 1) + ra2_P224 * ru0_P224 - 3 * rb1_P224 = mulp_P224 rk2_P224 /\
  ra1_P224 * ru2_P224 + ra2_P224 * (ru1_P224 - 1) + rb0_P224 = mulp_P224 rk3_P224 /\
  ra2_P224 * ru2_P224 + rb1_P224 = mulp_P224 rk4_P224.
Proof. split; [|split; [|split; [|split]]]; vm_compute; reflexivity. Qed.
