(** * ChainP224: N times the base point of the curve P224 is infinity, step by step

    Written by tools/mkchain.py: each doubling or addition of the base point comes with its slope and
    the quotients of its three equations modulo p; [run] only multiplies and compares. *)
From Coq Require Import ZArith List Bool Lia.
From Verif Require Import Curves CurveSub.
Import ListNotations.
Open Scope Z_scope.

(** q p for p = 2 ^ 224 - 2 ^ 96 + 1 *)
Definition mulp_P224 (q : Z) : Z := Z.shiftl q 224 - Z.shiftl q 96 + q.
Lemma mulp_P224_ok : forall q, mulp_P224 q = q * c_P P224.
Proof.
  intros q. unfold mulp_P224. rewrite !Z.shiftl_mul_pow2 by discriminate.
  change (c_P P224) with (2 ^ 224 - 2 ^ 96 + 1). ring.
Qed.
Definition chain_P224 : list step :=
  [ Dbl 0x81894a5cd43e9f735cb032bfb02eac39918bf057099fd7957610f7ef (-0xc9327f6f1132c7c870d36742b1d8f9e6d089cbaf73e7a050fe257da8) 0x418ba6923adc14165e0bdba4ad6a21ad9082fec35452493d04d68739 0x23be68e03562eed66d14eba0896aee2b4b947c0872a9e6333b311be6;
    Dbl 0x4a65b9ce4f0552973990442c5291d9ab2b194231164487a7de9179d0 (-0x83b7fa962c9cd7ace617c48fe7fbce3ff90846c6ec3a6c6d7646a909) 0x159ef7d76955426b8eee98e83b7fc383e06ce6af60d50c07827136b3 (-0x1212812a9fd201e8e9e47b622a22153c3f3ca0c9efa5d65674b2fa74);
    Dbl 0xa28be146d7e2ddc5031cd6da28344af7c32057e46c471f37289cdc4b (-0x15f8734996902c902e17c7dd72956c29adef8b91838c5328af1928c3a) 0x6735558c12672c21bbd652010c6c8070a9b0861bafc9d766d31902a7 0x1a0fbe1547df5bd48dd175c89437172e9d82d35fcbb89202c1423598;
    Dbl 0xe818f9c50b94e0343177f2ba83dddad4908adb11ae7a267b9f5f67bf (-0xc9000c6e48748d28df836780063ebc2967a6ac9e1347861cf135d0f1) 0xd26d4724eda0ea7b133f68d787ba20926176098eb25b37ab305a4f74 0x6eb89cbe9a947a4f668a754196d13505a95eb0f7d3efdff4c0d57761;
    Dbl 0xacbd40270e88ecf7e48b8a5071f6a1b84dadf39ad543dd39d35f3306 0x441ae1d3c35657211ad1d6d0c925ec2a6a97942cc9134e2f3a4de2e0 0x748eda1c454701d4e62a60db7b5421c8cb56dcd214c6137dc943efb6 (-0x73c4d8b661352747a3d735c54f506cd23d485385a01f9c5d2efb5c03);
    Dbl 0xcd257afe3df7b4ff71ef6e724b470e2030dec81eb6391809f2312f8f (-0x4af424abb76c41b77d967d7d1a0ffe62bc71ed4a50186fb1bb8503fb) 0xa4650c77f7d3f10a8d5f0587c72fd77ddbdfd0ab1db607a7e27e92db (-0x1b512028647aef74c0be58babe65210282daf29372f1590fbc83b9a1);
    Dbl 0x1587fcaef443814efa8bd917a0029e9d6d39557a570b8d61ba4601f7 (-0x20ac707adb96c4afef97ceadc0e1418fbc69685f0bbca5b2156b63631) 0x1cf97b12e019adf31cf36083eef3bd30a340903a1e012fa0235f88d 0x98bc55c19aad264fe202dfcf418314f389548337824d5b6f889e0fd;
    Dbl 0x278494b039cfcb2d72fae1ae884078caa665e603558b141885feb941 (-0x5a44442b91c1b53a0371ec84bad10d03581222c6f3da437f4f2326ab) 0x619a9f75db52a592d992010895d0b746cc84e88f08401be9ac410f8 (-0x1166251e086970d6d72f57d8853bbddd72cbccb7951a7285637210f9);
    Dbl 0xe4cc02bdd94b471db085019a7aa3cc402aa90255afd2d2b1adb4f9b4 (-0x1d94dcd47cfc6af32a07d8ad5e0d8341a20e07e4faa4cf0c29cefd0f8) 0xcc7c077689a7ead5f8726c21857a66e656f468f8b2790fceba3d7be6 0x9903957b8c0377f1e837429fdfdcbcc1f65e2f1d50173827043ff087;
    Dbl 0x7d9b2126727405b8c6a90b55ba83db9a047fa189f66b1d460403c8f4 0x7fed7e6ae55983fb122d9586389e6ecffc6acb84d98e1aed875a46f3 0x3da0dc60b49ed55d76d88585c1936c1557b3e25351c781c9afce7157 (-0x1d2ca60dda459ae46518e1d6d2408c3308e67beec76385c95062b35);
    Dbl 0xb913015ad458f598ac309cc160546bcdcf42ce134ef47d5742090a2f 0xa96322025eec557eba6cbb821a7eacd6c0216225a36a78367939310a 0x85cc795e7a65ee0dce232826d71a84be662ee3ef3344f609dbd80564 (-0x647e2e9f5c1ba6d3db8d5050e9f0acb3d7aa0bf05f8e3e7715610a0e);
    Dbl 0x116d9d340fcbcc26818164a5caf52af1e5f6c5b53a0ff162ad42820c (-0x18dafbd983401c7ebf09c96cfd91f2015ccb390838eebece869ba5af0) 0x12fbdd028f76a9f5a292634f73393f7d70cdfebd0c50e3f5e5eb89e (-0x34b74711244884067863f8fae28048082241543cab71a1b17c1c343);
    Dbl 0x19936f53daaed7f577ac5910083a7f2b52bae2783501e405ec631eee (-0x25fc0f69ffd0895aa2a6bbad4ad09c7156a8c6b5624e400debed17f55) 0x28e20a76b6d1e151cbc3f7ed0b0f7e6b9e990ca0ef1f9e5db976229 0x2514e812a087a39b50e89b67fbdbcd4ef41276a1bae1912f5e4e543;
    Dbl 0x9b169076f3896ad1f14cbd19a11b41926fde0f2d6b6f095f2b78b405 (-0x10f690717acae2473e7b246bea672f9f074bf3c1037aeb40f7f1277ce) 0x5df454ed30e04c3898d139bc62585616a21b6448a2b5c5b62f8b9674 0x1dc3c29d251ed28951f8c9f116a8af2611df8b7b297d025e09613454;
    Dbl 0x326faf90af4e936921e9610e5de1b15774611edbd2c5a875a06ffe04 (-0x13947f15c8a9086842ade7cb3585639034965d6ead48bf5a84dc88ec8) 0x9efd14e3c59d92c0466aa96e5b00c89d01ba473ef1fad1e8db0a214 0xfefd08ad653056f4192a1926e8106fcf719d61e509603011fdfc9cb;
    Dbl 0x6e073b1a082902ee0280b900fa853ce6f5dde29886cc937bb2d49e4 (-0x509425fd7683f583b566cdd133e2b2b8961d852b8f9185116857dbb9) 0x2f4a36fea814b32b431ba6479d31a96a489403efb868b302167670 (-0x1de17655f2a98488f9a20b6e68568f29796f3b2cb828179cb3df10);
    Dbl 0x32ca7051b945a4b0493c601f1851e209688cf5afeba461e9f4299527 0x1947b20e8121b60d38a601f46fe46364bdd3819f12ec4a174a27bb7 0xa13b3f55e9f327077115b6ffdb57b2c5c65fba00b6310e605121267 (-0x4eec323b982a486c1ec908b5c8f848aa5caf9932481319597e49643);
    Dbl 0x24ac1b2a184f89432375a824e89c8c698dcf3266ee30b0c2381bc785 (-0x6b5f5e0f70ee67d99a1207bf7c4cdfec4c2b8a566e6436be6ba7598b) 0x540db585a48f188178cf3595ec66ebbf0d1d7c63ff3b129fd1a3d93 0x367adfeb6adaa76c3da9cc0f84d363b18c46bd1f83faeca2fc8bc5a;
    Dbl 0x8d87a42559634dc78dbaa130cedc42f539fc67d17b57aa29a21d9247 0x6d9e09acbe76dbb6a057185d8f16f090c682e91b7ff2e407a46147c1 0x4e3eb2afad1b8a640c296c45dc56f8739761ab4ae0e239bdfeda5da3 (-0x41d1277ff85b3f37c1a188271c2ad7531fc1f0f96a1a5496d829e332);
    Dbl 0xb787438a3d6b21c9ba31fe72f8613d95cf406c99e7a99133cc1bc099 (-0x1a5c8befd89e798836e2ab6b930ac3c53417463943430649cda540dcb) 0x8392aa07f16d981864e21a650b469896a0f607f61fae033caead0576 0x2f57b1db1b8fac5b60c4fa22f8c14d3fd97176216af0c2978afdd065;
    Dbl 0xae1c2225c713e65141775057985af1dbc608890a8cb29f60ab9bc46 (-0xd968a78dea36dfded0274b132c8041574832e4f1b333c92c522cbfdc) 0x766a4182d770a7e546829dcf9726c48150b384ea5a89f9d9456439 0x37e68853112ade642ea0c34ab40251861f72530f183533d45d1f7d8;
    Dbl 0x42bf624237162003e8c5c39cf572395866c0af77abe00a0b9d2f76c8 (-0x1f0471bad173198221cdab34b085aad209f9592af9302455e4ef3a08) 0x11673dbde8ec5ed32da153dd7534252904bb4ea13c15a3c706380a75 (-0x1211d01262fd593794970254bbcffe9c495fbdfabed21d43ee7d4897);
    Dbl 0x208fb438661e80875c9069062489c46d68ee1827e8ac23e241c0e0b (-0xbefcd9366fa41dfe6f820a8e82f224ae9e28a50cf837d2661aaa41d4) 0x4243db8ef69123d29306b08aee242c3367627f6e38bcdd845843a (-0x4b34d19ac64a7121e6234141f1bb04387b04a005e3e0f5c7781f3c);
    Dbl 0xa2403269d58cbb63f878901dd6387ff66224edf13f8733085c0bee32 (-0x7139b62a20e2f4750ad6dff527f287667291e8fd868dbbc1e6a2c700) 0x66d54fe7311e66b4113d14f0973816158aa386bdd8fc4d43c7ac85a6 0x40794c2b228e6815e87ed999bae075abec6a770cf25dbb20f2cb9db7;
    Dbl 0xd6410e5f309a0c14ad61c099542d6b895a9f810a010908c82e2a53f3 0xfbab64064938ca6e073f4c555181f6ae9feee2d8ec5030faee00a6d1 0xb350d48f7266c722a940d52dd0ad999e52d8659b74fd540ea90bda7d 0x296815f17684295b58e1f5b21aa589a4355d0472418d87bfbe786226;
    Dbl 0xa383b8d4da062032ce8304cf0b0deed9efa97d741b447cf1357a2d84 0xa8b4bf1699a69e851e1b292e51014419e868839bd4e0834eb10d9e7b 0x68710125bced99a84916fe3502083545a49c01b7dedbf3770dc44456 (-0x7839faa81e251d07e3b19f0ade8f243d17dfc920cbe4cc261044d50f);
    Dbl 0x7a2053a3809ffba272e0ad447a79d5ffec8b0cf0f9c8d128ff756349 (-0x1c8f7e8e7164eaf2179b21fecef5025b215fb9c98e913423f6990cca5) 0x3a42d3ccdacc11aa87a104498e551fc280d361dd7f0eb323b04b7201 0x5466ab89b7986ef95082e2df711bc42f6241c23ecbcaa11c28f13e68;
    Dbl 0xd1581c7db5d411f8e18cd2f2647b901642b5b9128301c249ffb8f2ab 0x5693160e32948b737fb43d45437a3c6b32e68be3da3feec95915195b 0xab30fcd8dc7d04a6319090bb94cb905bdabe0bf3ec61ff4a93d6e30d (-0x97e3426b230f30cddb714b1228f0de9fb9366c7929a5c1feedf94de2);
    Dbl 0xf2a5f5e5b99147647de8b0c29e0e9548a65fe5fa60ca9d3d90599519 (-0x1a6587c8f319d632b2c6f6c805d60916a7d02bac43f9199ebf5139a51) 0xe5fe307d392963959ca99a8da40de61c92b15574dac6ced2c38298cf 0xb22bb7bfb8c5de5f07b4c995085cec590dd4c0eb859059e17dae9f8f;
    Dbl 0xa1a424f7d7bb2b75fbfb13f1abf51f655a7f422ce569b9522fb8da19 0x70ee7196840d41e7df7c213be9369b1163f04a6ac64cd62e032b2cc1 0x660fdfbf203c7918bb4fa12b1709cd9a95b7a7f075d60ed57426de6b 0x3b7aef9e5cdc7ceb60e26d2dd6e3f0da4011e40415ca63af1c19d0f;
    Dbl 0xada7c713a7d498cf45883bcc687de80b6456870d88310fd45cfa0d3e 0x4f45117b206508d7379c89918de8b23273ca4b605d8a747849b89347 0x75cc3105e749de565f8ed55a4854dcbae2cfb2cb463f90d0510d86af (-0x356bcff58a924ecb4f4a82c3ee733b58756cbe52f7b723e8d7dd026e);
    Dbl 0x31f56a900e6dd5e8b3926c0a673960d9038b3f14fc439132599b51d4 (-0x565b159b94491065d4477348de6eda9805333a27e7a8093d96bdaca0) 0x9bfde10499d4721b5ab50a35c29b0eee48606bb1b6801ab63b9751e (-0x94d2da06226670ae060239deb731a90cc8e40f76b96d31b63a354e8);
    Dbl 0x4879fac0b8c0a9946f67cc5f6af5e22ad8ab71da23310b12b7a399a9 (-0xde1681de6e88618a74748af260839041630a36d077729a9e5a94a525) 0x1484d72b67b7ff71be858016e45bfa546eac65899698b870230ef15a (-0x1bf6c9ec8824014e4d44ff550a50365c0a27184763c33559bf1564fc);
    Dbl 0xb9cc92df609609fc81d0d3e50c0fb60930203e9ee87d025961c10a1e (-0x1d05c96688c856c43ad19ec690c7260f32db1e71675661b25c2900734) 0x86d94fc141de56a36b49007c31a4d2c5795f8d2c45164f531a2580bc 0x945970b49814797bf62cbaf9840c0aae35948780023bb500eeeb5de;
    Dbl 0xabd44d3097137e8701406f93caded8146d6ef20cfbc207b41e502dfd (-0x2608111f784bc9cd8793b0b182730be845859d66d7308b77a898844b3) 0x73554f2ed994876ca5dad1e8c323d4d669f9d271809b190919699a07 0x7f9f98aa6d326872190932b06d94b6b78e904f203bf7d66bcc2b1e17;
    Dbl 0x2f3eacab1c074fef48a3749216a5c8d31b82212ee152c6177ac30907 0x38680376bbd8df24d40a8b2ebbcd6c4988a8d9004e2b78f226aa337b 0x8b812beeba2a2ecdcd320f29a052a91c71cd2a36a6d8ca9fec13d7f (-0x1cdbd6acce0dcf92a382628b31d9cb238645d3c528892bc0f5de9257);
    Dbl 0x53ddd90e90e1d60ee40c9ed52b5be7c80a02f2e8981ed18ff320f27 (-0x1bef7ea9a09470a4552a4155f84dadea1c02a2a2ec55c91f39caaa6fb) 0x1b799affed22492c452d6d1186892ece67e9241c17b61b2dad69d8 0x273599c94018cd969012d55213bfca8b6ca21c3125582d9061c9c35;
    Dbl 0x862509c66c097ae4e09c93bbda8ab7539cfd9d0617b1ec2fe3b7b0e1 0xe8624e6e347a628864677fad84aa17a15a3582164b3945a4d0366fa 0x464acb978cd4b4c9183309ccce48fa5798aa21500d8eca2a467ebb1b (-0x423351b48c6f0eca7046de5d35f5689cd427c7ff0c3c90d266bc8a8f);
    Dbl 0x689ae91f514ed5e5225d6753f473c6d4913a24e92bd83052710a4c13 (-0x1bb576a2199bc1a470082909862d8f0f00f8a766a692e08470368bfc3) 0x2abe3b26c007e679cfdf1e02ea6d2abc11f907d1d687740c3804ac81 0x3c24ee454f5070ebd704ec055b86febc12773ef2284a4dfd36112e83;
    Dbl 0x8ace03633ad99515b60ecda6d2c406985940e2325bffd9f7ae60dc94 0xccf37d37112e2a1988cd4e04d9c419220809918ccdeb18a0fee45113 0x4b42c1706f30c4bf02881715e81b249b9c0e24f2a29a5113c107f077 (-0x35fa79d260bd87725e70d60453476a67bcb755673a0d92aa24bec969);
    Dbl 0xa9788c56d214dfefc0293f7d7a1b85c9655e8fb7607f1d0a3fc1dc07 (-0x10f8cacb2c63c3045f66ffc38dab8b73e2c8c4b03986f6d525ce21796) 0x7030620e7fb3967523d58cda829ffa39eb77b757c3180f060e3bc6a4 0x30e118d415a2bc2c2da68b8a49bbeb40338967f3c5a767fa928e10e5;
    Dbl 0x70ed4133e1a7712b0fc029185049a9cccd4e43c328f61b8516d3cdaf 0x411a0735422e2b5ac5c024b5b345c5ee1e33e91d507a6f42f2b23894 0x31d074ef301db627ee9a055bc29935857ae451af061e242b9c69f620 (-0x34181b930e0762ada772ff59095e83c0fb1191994d0610d799f132bb);
    Dbl 0xbafdcd0b7d8b8d7783b630f6f5f751e6804ae115c99396173dc95a67 (-0xa2c42e0eea6ca2bd429e451a5b7d29e1d919aa7bd6db50da923c91ca) 0x8895c9939f6056fcd1c03ab466371b8f5a8088ceae445a3526018fc7 0x3f4c8b60db3413b68f9b5f906ddbca9da5bafc37607d170b0628bb2b;
    Dbl 0xf81099be911b7a4a5daa2e3e96ea0b23ea5867b627b37e47473a849e (-0x5c774fe875498dc5015bc9e28e0691abe049f8caca5e96f233e457e1) 0xf0602af4cd4cb7adedfbfcb2c451494cd486a71e80486959b5ef135c (-0x1f4b6f2d3fb12f5128734cf8f3c7740d458a9a748978503d50b1f17b);
    Dbl 0x87118f2044dc22bed372cfeade4d86e93c148d278d6c6cc5a4db7441 0x11b81024a33c5456d033e968cbeaf5ad7bd3ca629d702bfdf64726ef 0x474386285aee62e118babc3991ab53db8dca38062860d8c9e64c8bfa 0x3829bc032e8f5f34900b42e269d379d5d2f8328b59e4437af5b1d345;
    Dbl 0xee8020743b6d7fa6e5232d8431f7af8a3e3f6a513cb6f3f0db4adfe8 0x6ce5116b14b45e1957f423bf2d13df173613f35a0a17c26566c5cad0 0xde327c7896d84a7b41e39c04a5c1297738032787f6756d79663ac6fb (-0x17e489d5f4c32f4c6336352c40889ef096fb866d0d8cbd121bc9cb53);
    Dbl 0x723e2a0b587adb73d02601032de5e5a6eb2d664d4bfd8f93d70ccee1 0x6684e09ad3352c76ac63b5447f506951770dedf240946dada878bffa 0x32fb6c8a7f34007e7aa03965339ffcaa521a34d5af924e8a5d88779f (-0x2391c784463020b8e9a9ced499eb2bba934c0da02cad2010d1742f25);
    Dbl 0x723bf0abcad4cf2aec2afa44c47437ce85041dd16d817864e9ad9d09 (-0x6ae5cb42a0c9e5d312ae79c46d391897b0f728d66ed878120eac7c97) 0x32f97061d21796315590e8b434c6c2c11729939c1f5a1a26f8a9dbd6 0xf5821fac6cd4828e843adf7ffffcd18ccd7a26a5af9167cdb9cf6be;
    Dbl 0xdfe03f55f290f4d8308d14afe8d435c9a7f212d9b952f6d77a33519e 0x8fbb47a2b76cec54ada0c5a4041d622c12d90f6a6a903ab952a507e8 0xc3c872c6a2ac727b718621617285a7700779a66e905ec71c993fb262 (-0x4e758053f4ebcba86a5c2d3b97384c7f2c2c165ac61ebd0daa1c19ba);
    Dbl 0xa16bff82ea489ad4890dcb44e261a2a28cf5be5a5c1c5ededd0056c8 (-0x1bc0b9bf6223abb5c1d6d54720e080326841267af7664524f46b98aed) 0x65c904f241253d202ea763bd3d086dd7618218b4d28a8c07a75ca0a8 0x4a75acb8948c6d13375a6a3f40028ff32efffeef62a01877c1dc1c9a;
    Dbl 0x1f3ea9b202b7125e0fbad472e37dba01a5e82e9fc346de053b8b3422 (-0x4c6e7175c7d8dd58ee7025dbffcc164e7c0fb83ffec566f2a8d3e235) 0x3d03c6fbf5e2a7d2a3bf8ba03188946391279cbdbd522a2db7212f7 0x3a08ce9a4bec424cd0dbc34de3f4bfdb45476bfba5e14c3079baaff;
    Dbl 0x402c3775708fbc63ca006c740e3f3c79e678308a20932edf3a2bd4d3 0x4f4a84c443290db0154709739fced49c68c64903353bcfe48a22f8e6 0x1016235dd4aa3bd87f20cfed74e0472330255ecf57291fbbc1876455 0x4fa59aa34b11e2d336d8cfdca8987ec34b327a78b06d3f97b3f0982;
    Dbl 0x3f7974043969a8e9cee8cc5cbf6d3c076a4ed0e79ac30ee27e2881fb 0x5426d8fda8e0485cc31e1e9ffbc7e0f9cbe789cb732c64bfd73edfa3 0xfbd00b8f4d41b1e5a1d904c63c24444376fc7a1dc18d851f2513954 (-0x1d24ad7f954b2a46b57de78edaab06faaf2e6a367e77c31b4049223e);
    Dbl 0x3e2d1d2901c2771b2bfbfee5df2ecd8c1f425201426ff3e13ef26b0b (-0xc9b53f82fd036966efdfae67deb6ba8aa184689c2378e42250dd6c76) 0xf19e21320972106a824ed611653c3e8fee54f47e0291ddcc10d9b72 (-0xc92c7d04ac1c3ba1aabd064eeca2b2e78a8b0d525ef933a26286f13);
    Dbl 0x28826be3e3eb976df43cb62bc8b03d327465fa7fa511881d7c7cb693 (-0x1a4080a904b9af4d2a6f06cf2271815ea7092f912605e8a2e2c5c47b8) 0x6690428f82565fd174f251cf3b78968cba56094f1abf88c1f8dbce7 0x1cfc1ae021eac059569857e00a48f251ccb1c3fa9137edb0615158fc;
    Dbl 0xfbbddbb8640c80f411cfa47b21a9b1e8601422acd99cc3b4961830d 0x3b38b7b115b065c8ba1fbd139b47549f21115924a7c71354cc7c651 0xf78dd9a9bf093f52610433d0357a728146c8295c4ec4c5c96f7150 (-0xd4e3c2fe4b82d627ab1b0dc6ea094622943830c00609abfb5feaa3);
    Dbl 0xf914b76d948a2ad51584d44d378e08a27fb5402f8a915ea5485a18c5 0x11c747d4e8dce3e7d1cbc6247149a87b667331c661728bf23dd7260ee 0xf2594e805781d62e923cec10328d8f475975543b47746cbc2664627a (-0x3edce2624dfa05846c37e1fcf2463e215d7eaccb84ab2e5065a83103);
    Dbl 0x7bd65d9c1e45240f3a42613bb39a2d1b28508d294dca09724fe69bc9 (-0x5d07c7cb7737dbaca94291242aaecbf058aae24c4ab7b60fbfae2f20) 0x3be7b174a853d9720f7c7a6d30e38e399b627ca06ece662721a34d61 (-0x497c1d3aff55f94c72728290b9ac957177ccb8a301fb3360e42fd69b);
    Dbl 0x8a1defcee8f8b84a5daa79b2c18caf674da90ad48ed296e52aed29c3 (-0x2ce8a783483adc2a20cc9b69190613a7d5859b339f0ad3b03f7946035) 0x4a844a0b48b0ed461a3c3613b7489b2eb67ded4a776125034c8190bc 0x15f35a6223372674845f5919a97644558db8e2f30020014de8ce7261;
    Dbl 0x8bbe5a466678c92cf2595d34573f2c45658cb48c280a769230a8ca3e (-0x1de82e8509501d068a05f356381448503002232f473b4227b5d23d9c0) 0x4c484392939cd92a8e6ae0259831e85320583ec223879f14d25918a8 0x40f05f95c8b7a1b3f70435de7a62a26d874dae78b33e6ff0db896584;
    Dbl 0xa763f894ebb622f36082b9035a9985f08403b20f6498043d88b09d30 (-0x2a2224a2ffb5554987e16cab695d25c40d2f923702073cea35d97aa9) 0x6d73955c8016cfcad77f0ca2e06b917655887c8bd6f450cbd8d37c27 (-0x55f4c4f42f058ee82774a590df1f5e821f788397174ed1cb85445510);
    Dbl 0x5134f65c25c743943f8b28206769d9b3479ae923e3ea29020c8e9a5f (-0x22805369e8c183cd2f7473779d2b9db4bd7b8057b7b9c4965d0821dac) 0x19c28edb526cab7d671c913ce86e0fdbe0533847bcc82fe7a8088045 0x3775187309fa73a37521183e3ec0d22737f9c1724756feb4596ba753;
    Dbl 0xde389cb460fd9a088156fcc977874591d6f679045e6d1109cad54f9b 0xcda9b7c01578925d1f9487d5a48424cd1bf53f7d28d1271f151a0ae7 0xc0e63c4dc70e9b67c1259cd41c5b0c40d352035df1e808714da3b35c (-0x55a0d23e20abcdb5d7976a9c1ea7fcc230bdbe69145bf4e06c5a51c8);
    Dbl 0xb70ad228d0a4fb2ceb938827d72ca5bf830c4231449c6dff87e7782d 0x37e8d482f82179a9d5d60989ac15e7cbc05c1952a3f654f5a50493fe 0x82e078eb720328ce6200073309093e0a1245988a004b76bb0159a9f2 0x24d935fc98ece94275f5311dd6efcfb0e33cd4bd1705583f24dcb646;
    Dbl 0x8edebe9bf33cafce6f6a29f011835d11cb618dd0008035c62e287b53 0x952ea206b856c89568b26b442d02199f2fb84b8e6d646d1803ede73a 0x4fbbdd44263d0c5875329828599ee5f5b9e87c30142678ddf6f50757 (-0x55371874ee17e4750a9141e0053c5d2f4b147d2446583cddf0edd6a3);
    Dbl 0xf161d376fa5474e82690180f0c36356360f852952a1cdf73922efee2 (-0x1fca773756b73a6ab542aa222a05d2dd3326e01b19212a1c59e5bee41) 0xe3995587f22a1010a3e40c45fdf240a0c1f9a11a0d9c7bdc7c458961 0x159fe4b6c843d37b146290d04a5e39575673a6219e17a299c114863;
    Dbl 0x579c82c00539d560f043f16979fbcbb881fbb108d558e22dec91d397 (-0x22fe041c355404202a077fbac76c2c7fb488aab409b1714eb9f69b568) 0x1dfbc08e205b42da8504d5b7d0f727a847b66944ee257b6d24fe987a (-0x27262a9d6900708ed7667fd43f53f6f25ccb95e33646506749edf4f);
    Dbl 0x2d1cd54db9a03accdbe4a1f82d3b183ac742bf237f8c0139be166be3 (-0x2be1cb912625c2e984bf63317f163e9ed44428a710ee53624db2310c2) 0x7f3263cadfd5e36b4f3b9610ea5dd777cfa1b33895f1cbabef658ff 0x33a0432d9d551e85bd7772d13791e62b42c5fe89e489959249e5bff;
    Dbl 0xb17c4c669d44c21dcb62febcefe4eafbc16342d45deab803e2e285b5 (-0x22c873adb405aaeddb8c424c974780c2f8ff15d016aa349865a233f77) 0x7b0d1dffffae858bc6c5b5392362c4782904e6860b9ce6a48523e92d (-0xa873edf5b1c9d860262aaf8b0d9021042aaba8e26f38699c0fd951d);
    Dbl 0xf548c4f42ff6a8b84b1815956f89708e48d02fad0598b6f5f9f5ab04 (-0x284e8d7da4314a92cd3f42b9e8aabf209d904be8cbe7bd2edbeb1f81d) 0xeb045daac4afec0cd0eea8c48f7757d9a3e558573f436d822dd1d69a 0x57342f2a98ead39aad603f79bc405776af5ebf83276b44c9b600386;
    Dbl 0x16c68b574519dfca31e7ed2a54c6d5c2d20859d0bb4a11991ddc4ffc (-0x29048d36546a5be83e14be43e2ae8afecb930a4ee5a3200ca35de3589) 0x206b9eed6b73947109bb266634322efb1a8484283082e2ed6881411 0x10073b4448defdc473525efcabfb493afd8944808fca3eb69e055027;
    Dbl 0x4276a6752c795550a12ed39f86e908305c743931606029520176aedd (-0x2cbd602925afd968797561c799d7cbb504fb6951225760e6d3e7546) 0x114164d24b2fbb2742b737dae1eff545339886b48959023936b6ab21 (-0x1fa86c0fde75e0b48b746b81a62886ed9061b56cdd3d7fccfc624864);
    Dbl 0x740ee0c2158e8b124178e0aff0ac18d511466ea4d066e253a33ad599 (-0xd94e5ae0214678e25c17a99e234b9c0efdec502d7910c87414b44881) 0x349d7c8d3e17c27de29021465c4e04869e4633f42418e4689e433874 0x46612ce73e719be05f595b53073bc18719ba594e41478c9bd6229a54;
    Dbl 0x6ebc5a1263a23752e8e952333d745c9335ca9ac4c38adb16ac52d393 0xa254363b17659ea8f7082662eb84789157b33dee61f767e45c4db9c6 0x2fe667fc3852ad2cba6b8a55c3b5d0af14e03ad4a5f84d5621d622de (-0x23833956750855e5ed389d0bea9d85af6f60f6d1c6496b6844f4ca13);
    Dbl 0x4017ba08a33dc82c300c54a261333a925d9e0c261ce4e36baff163c0 (-0x66c33a7e2a61cb0c5dbd78bf8f70c76c4bdeae0166d232c89dc64c50) 0x100bdf37465cc6b072cb40ee984c003d38210fe6b8f08cd42e2b5233 0x2c9168d08cb4448276754375434e220d9d0d35900fefb80b8da36bf;
    Dbl 0x8c66e1ffcb69e270ac6594bf18ae4527c8728d9499bcec78ed40aa6f (-0x1c47c637696f9a1674b460ec24312929636ba8a0f62d1d7ae397a296) 0x4d00b088a5d58b32acf4c00fc73e2bce2a3241e14cfbf98691ea9ecc (-0x1d30aa5c82968090b0d544742078f8d5c8355a34188e31bedcbeb977);
    Dbl 0x307289485a4a9aef3b1511e4f5e95d0ad6ae3e1b773300f6bd1f8103 (-0xc8320e792aa9251f13e6762f97551f17fa05050ef13ce7a850f96b68) 0x92b26b9afeae9a276dc43f5bac152211df57ac35e9e0bfd66002450 0x110bb5d1afd3425c4e6f202add3bf10b7777a69cf81ea7f2cfab9ad9;
    Dbl 0x7f078f39080b21202f667c1258926723bf586d4dc45fb9bf5ab97bcc 0x6fbed21d0c470a385db49a926e34c4f6d75891dbbc579cc152ff7fa0 0x3f088053bb3a3f2ac301ae8c7725a44a78c1de55b14e9b11c6c4779e (-0x4b62b563c32301e616174c2397f50312afcfd6887c6926e73933f4b9);
    Dbl 0xa12a20f046bfaa6d7554835b4c2358bb966d3d6ab53a0af9a863eb57 (-0x1520b781187c19923662cbf6ac9f4dca6466b82a3dddb0b19d7867689) 0x6576045d0c113e763f071838abfb6a005cc076e5783f4b9a7471da19 0x1ff913af8263ae056fe24bbaa7a7553a29dfb9e9fec9337403f7dbb9;
    Dbl 0xf22d41927c6c167be19f3b0799d025dedc67239a87076365b1d8416 (-0x12bed75cd5e29d4eeac17a3cf9435d980d73d98cc52ed2571f775bb41) 0xe51997f91187cf83294bcee05224f1d1d2392e86ae605ca9e82066 (-0x1a0879e4118dbba34d39cde877c76f11cdc94749c4b3ddeaf6ab684);
    Dbl 0x90f59523885ef245f25e4ef82196727e52e5c4e017e8262970c37333 (-0x1834719cbc59832f4e87b8269703134dcc0e77e5a268447b077bb3257) 0x5215335ec65037f7832cb13d7c9a7c38610f5d1fe6a2a503687754b7 0x18bbd5f3073a7e455c67eeab9f91771369fcea90a6d81d85abbbdd52;
    Dbl 0x33ec1d01978a8f125fdef8c7fad4769badf08de211f5a09d96655758 (-0xb1e80c8695840847471ee0a3e8928459d3d71a574cbcac83a6bed719) 0xa87ed542099f8d10947a1dddfa04dadb419622eaac9fb2f704dcc82 0x1d7a210b90634fd4faa81a950db4a8039a183ba5cbdfafa16d089bd0;
    Dbl 0x716909b43603d8563a66d60a34675137dd031cce6dc94e0df4d5719 0x319d4923d3f6e2b0ed8b7434da8f5c6a92362289670588ba975c1 0x323de5aa0de1decbdc4e9a011bc648cb3e22b003da65a2b7299339 (-0x6287fc4ae6b6874a23cf40158b8fe83c11e313ff5f54a3173503fae);
    Dbl 0x68903bdd9159e6d53d66af9d4836ed41b9af91e2af871f87b4c0432b (-0x21b15bcb40ad4b16a891d301b7530c6acd2a8a434e7ecfb3d8dcdb9e3) 0x2ab581e76d5c7174a9ee4fbe93d273b2820a5e58e95d1bf1930783ac 0x32033313b3fa3af994ae265ec08a077ae9c335758decbf0698a420f0;
    Dbl 0x6c7fac7a1b7a3ff1562ccfb0a7d621ee3cfd95a0d081261c0cb14f7 (-0x7937e31d52bcf82a751bd7e3cfc303ebf6e3d8424f78f41c9542da74) 0x2dfbf9339c8ab8698b8d916362dacb7134e42fef6094c3bab4f6f9 0x190358124ee315d003448c1e7eff7df4447a34326e7827717b44a05;
    Dbl 0x3bb4471fffd536d649eb027faf9f7a07fbb7edef3e2dde0ca0006d6f 0x43dce705ad198fb0c9936b8b93c1cd1d8a07852539da7287041592ab 0xdec97bcd8aecf041d22df5bd4683375ad2534d6fbc608bc7da01689 0x580742fef64a92bd660b6672f2f3c20b6d2b2da46ecf94157dfcde1;
    Dbl 0x785f31f51d9758833e128c6fb6402f3d9de9b25800118dab8ec159b1 0xc7629aee4238e9d9d4d18348cbca553a29ac53bf38f6fe79b53a8d01 0x3899623be96999545296c1ec2486ed2cc6f8beaefe08315a016cfc1b (-0xd6a29d512e88a0c86abd6f812221a3f2fd2681e6954c67553534dfc);
    Dbl 0x95de49d2af9731e798454388e38ee8c95e95bd63b326ce5746e9ef04 0x1ebdf1394bfe9df9c09481d5c0ba4611e441143d77a6b883698446cf 0x57bc82f35f185fdaebe0bd125794b30cd2560f5fcff4a6122d42febf 0x14e55ca6c2581814e1c32492846ab36889048aa655158770c3a8d4f3;
    Dbl 0x1a10124b26ac00cf36a5bca1936ac039b56ccae4e69a059ecc10e15e 0x1545939c0607138a2772d12e3967f1bb163f8afb1f4b00f0aca1c8e0 0x2a744b98e8e6d2a0fbd9ff05472a63a02dff78db7cb570f787bfa8b (-0x373092ab692455fdef8e22198b0ead12b0b73c5d610165b2b8690d2);
    Dbl 0x6abc603ed8149cae56cc7c26a334c22855de26953b2673f658c3f7e8 0xac771c15e31a8230b7adff0900a45f2bea11ba303295bdd031e713e0 0x2c808a518b6da18355d242c0cdac155d4a2f568e9f215c70fcab5bac (-0x481a764a404126d0d99dbde71403d84f60c45f6236c30be2a608f699);
    Dbl 0x5a629be81e74e47c77fdacd74b31643c6b77eaecdaff8938f6b1e6ee (-0x1a6afe6c39de34458c0d85b829dd7fcfdd48ef5fd2964e97998878ded) 0x1fe97b9af214697f37d6b19369a46c38dd3b651069b726bae1eba100 0x24476cdbe7f69890f764c088ec48252761fe4e233abaa8c1a003f6ce;
    Dbl 0xa7acb85c3682a56afa2f13b4de1222a29cc47984a64df5d65bc5e406 (-0x39bb166c2b7e047f91cf1ed0d11d602a844b34fe0110468dfce8aca1) 0x6dd2cd108fcc62f2e175a7f58005421df3f5161295894f7704130543 0x9a1024f774b03e5614f5ce873af7804902519fde28de9e1cf8ad883;
    Dbl 0xd6db2d30d974997fe4c0fe06de73d607516826011b24b870b3d83211 0x8731928bf06ae2b65f9c4c1025467f08f89e865dcb7e7e3036bf0994 0xb4532b34051d33e5b5ab729e07188dae9483f8cfd6d2c3077cfe8ea1 0x2063a215a849efafa8d89b34ff3ffd0aab940c4a234c5deb9304ed4f;
    Dbl 0xb616bf84fe8b2d21808cef23cce02d47c74091533fec2272cbd2c7e9 0x3ed20e793b3074d1d026bbb57126bf12dc09791e45696e588fe54c0b 0x81845a5694115d028e817dd765120eb6d04d04b1392dbae29b84bba6 (-0x19cad0a04f4d44dd80330246c309ef11f287d49ebb3dfcdd12da16a6);
    Dbl 0x6c84db2f362a905d0cbd8ee9166eb2b38c9f2d7282dc368105925dcf 0x1b72eaa9eaf2068074db3c48d6fda572bacc969c9f35179305d2441a 0x2e005de29a0d951524cb4601fcbac58c5548f0f77684fb7ad83d3763 0x3584eaf02e3ec0817409270b4d0325743732f64c6bc4b059ae51242;
    Dbl 0xab2786ef6dd91f01fca85191ff2f9be7b6a78b2cfb8b1707da8ca7e7 0xe20a7d8977939fa06178e163d07c5499d9754d3840d76bdfc935d5eb 0x726dd45e40d30e81b1246f052359a68f2665f4e4f19e83c0c17dbbbe (-0x533321164f7b193fd20e2f682afb313c0e0d7fcd39ea5a8e090c3653);
    Dbl 0xc2ee0e110d78496bee11517d5e15ac38b6da1b5692aeea69ed1ad739 (-0xbacf1d95ff8de398e9129026553b30db014d86618bf022fb12b4fe14) 0x946daab000e5398c0c37e60eeb56000d8229882771bf6c95c9a17f2d 0x91c8b99102c38578955bd96ce52eaaba341bd164666654147716fe63;
    Dbl 0xbd70469da106946a22278898f88b7618e61daf021c765bd0c6652532 0x16409713381b61bafa2f5ba0c6986a3e2bc838138f58a4ab572477a97 0x8c2ef9829d2b320513d19dfdb202d11e986c35ced1530cddeec4200f (-0x735d55921c25e9ce04439f8e84e9d35e6ccd22d4777d37e0c1e0d8ce);
    Dbl 0xa2c424232b435bda34993e0a39fa79beab0157a7f627c10be8e41496 (-0x10284e4f2a1e5060813b1e80300e75772627d06c641d0c63d6aadeb90) 0x677cd403ddb568649e42ac35ef3b7f2aeb5754d1c4aaba8d2cad4d35 (-0xfb99b6c3de4b65be414495bf2b5edd2d2ef6d0afbaf679952b6c8be);
    Dbl 0x71eec0f3991a519243b534b287250f86a646882ec7cc69350e6ae639 (-0x1413a5beb27619aebaea23fe085d8e5b9c8d5e8b56e3c6a0aa46a522c) 0x32b4a50263883666499e96e570f212782940b681134f63b63e7361e0 0x405ea56fe24566a4074c2ddfe8adefc9c39cb381d0445bd0469e7c43;
    Dbl 0x7fbb9dd149aeeb60334c21acd16d1af9dafc37d088c4d8862205ec49 (-0x261bf98e7b1a1770603c37a021b2e42f4e6de7a420a5f3dbe7227846) 0x3fbbb0159827928f42f606637a52143df6d53e5e612be98951471589 (-0x1ef85973e087130b5984a1b95e98cbceb92c8e468fc129dc6ab6b5d0);
    Dbl 0x88653d2f5db047e2570c5e997c1bcee2f0ad43363c70bed95c987f67 0x1fd978108f5abdd0d5a7692451e00ac90de23d224f1add423547ce47 0x48abb90ba98ad4e2c05ba47af33f5d67bd64447c80ac6efebc7d6877 0x288795c2237085cbde5f789c66c89f2b77bf7e94a680377555fec488;
    Dbl 0xbfc50f79ddcf5af383cc9cdf8571f9bb575814bb4a289426745b75f2 0xfa69643b4b6fa4c4e87566e4efd207444ae1d1498d440fa514632f87 0x8fa7a4c8ab7a4cdb145059a032a07d0eedce265ee2c230746203e025 (-0xae09f0739b94eeebbd8cdf8f96430091f8bc7e0425bfdd6bcb4e147);
    Dbl 0xc689d019e7867a4cde24b40b2472dec151256632e7b841844a149b4f 0x6f79c90da34d637ba0ecf5ad62ae008c4af70ca7d23db4e624c392a6 0x99f978187707edf75e4b4d23f3d81f16106c7af8dfa5c11d1b6fba8d (-0x8618e71dbdc535152fffe381957f3c870345354d0b4644c4771d6e5f);
    Dbl 0x4299721f45dfffb606ee44da785c1097422b746248ab82479211403a (-0x267f4d00da608a930a303aae86e7f090824921374a905c8e1c5a88a35) 0x11537ad1bc48e3a70237b46874833e2b4af6331594f0700a713ef4cb 0x38bc6c21c04e4c4a9d132d9dec977627df6440e67ae73cd33e5ecd20;
    Dbl 0xa8374ec12de744dbced7ff758412da32b430efd4ee8e8b41f5dd9a10 0x4c0a2821c6ec3b8b1b5e2f26e3ca12249f26534de07613631a0dc808 0x6e88a3507b7b8d7f42d544b6211f0666011f02b653e8aef3dc2b5a92 (-0x3048fcb18fedf229df407663ed29dbe1c3aa6b96442f09fc230c4f3a);
    Dbl 0x30e211698daf0c34d0d4f549b3b2e93a760d9d7a7c5d4ffed9d1115f (-0x46da6404f546121e874e464be60831973dde56e6fca994833fb327df) 0x9558e2a54aefdfc2331e6302f9e7780ef2440f2f14a27208804dfe1 (-0x130e7ae9007c6aa039f69b7f7dd7f5baf86cdeea8be509a56928c065);
    Dbl 0x2e3ad7353a6871de3c1be40cc6042cc1aef84c73b25d75e100658c56 (-0x155a88dd220199df063ea73bdacd186dfe6b986d5ae575c6e2b12f97d) 0x85932dd5a06736c22232fc9140087daedd03d8437d89d9f480b8ede 0xc668a9e8817fabdc86612e831b772ae51f283911a142873c24ce779;
    Dbl 0x15de73dcf45939577a0d27e7e1b30239c25da13f94813fb6d3d992b3 (-0x87f29cefdb95bade1df29133029c2da6230886ce92d39950526bb977) 0x1de404f67beb064d9d731c685fdbf9de7f986968c66991cbfa8622c 0x5fdff9af99e5cc2cb28dec996c2d7982b4e7bba3c6359593d24836b;
    Dbl 0xb64520dc764d22124de70d099cbca66432fd9fd6d40db9b09882ff83 0x5c1509e4f536a43360db2201f904518dc04f0a87d0613ac3e6a10006 0x81c65d6433454d753864daacbdc845005a10e695ccc661852aed521e (-0x548ce81e8cb65143e8593a769c887607b8853b576e2cd4223c0d5272);
    Dbl 0x43d34200690a25071a2d459550d95ae22d32f9d27cb09258e58defba (-0xf90aca3b37ab944993e9fb1a7060cef16898c140acde8b0aa2596b9c) 0x11f842e214acac442799d552f1b845efcc94e2321c774620a3b9fe32 (-0x4e27d534e6da8c8ae7f5fdb23586482537d569e74a1d13c4d6c4205);
    Dbl 0xfcc45c52c63b67f67c0d097bacf307e3f55edbf1d6e110848e4ebb4e (-0x15284d6520688b23159e0fd0d5670ca922ac723fc61e60bc1276cea95) 0xf9932c60765018e2bfef544d36c3e10a246895fabb0a512630148021 0xb43598589914a75fde2be039ac656b7b0a8c0eea008b1a24447533a3;
    Add (-0x1) 0xa66b38a738d5383ed47344964021c27c7961821d9adc07e204e1a68d 0x740235d02c3c09ba81080378fff5a3e0deba34279c6c44cfd60901b7 0x6c2f3a6146079d46fb73ee6bef061eb8c304e9bcef042317f83b3ee7 (-0x180dfb40cdd4739e71c5d640b3876b946dbca14927785145522c991c);
    Dbl 0xbdd6f10865e1f1f48d21c8b0f269f174cdc4110786e11b4d8ffe1ce8 0xdd5aff62d74c5ef35bb3a0d5b06b7d54bffd90cf47702b9b8ddf1af7 0x8cc7145e436ac51d8d79782967aa8436ab83480a4fb6a6bbedfc84f3 (-0x723a03a19fe80e968f220a3fc4c34a138682dd4fc1da81e158d7e074);
    Dbl 0xa8edd6772e946f85d379b3178cd27621313f16632ce158c5dadaa5fe (-0x18e8bca62c16392b3b20e02a071113c69d333e6835edc125f3f28a650) 0x6f790673397a8a92a4466483d0506c7c0105234d0efb2a87e2951d15 0x383cf26684fe1c1559c00a657f89ed2f81924e6f602e052c72014ad2;
    Dbl 0xe2c23de59b98f52cf6920cd80550ce6248149e3c440f464d2acf26e1 0x258aacea7d66871265b689c7a44d8b52306aee1be5fe5b0241dc41c 0xc8db88ab45b11ecd9e9038441efd68b7353e53ccb18f01c76c540d62 (-0x68a22652d3f23f038b07648c3b5ef4193ef99dc8532541727dd1ffde);
    Add 0x1 0xe8ca083d05223f16d48a6f58b6c7971afb8b145540eaea094f9dd279 (-0x295c6ccb78642e813d089fc348d452ad62dc9d49210835a6e59c8c5c) 0xd3aece5f99de0b4287a02d7e2a22ec542c8246b2ca1879bda2c3185b 0x4138ef0ecfbcbd28b65bd9c208384d383bda068312587e61b09da393;
    Dbl 0x3c083c237233d7a18756de90d43f3b9e26f069d9645db946a72a386c (-0xb30eef8346e6b66fa99b06d672c94c8d11f216c62cb54a34c78932ad) 0xe13dc746de012c1ebbc11e90325a912aed841c71de431c29303b807 0x125e1e59ddb6e1e697c073280b5197d49ce505a69010d3ff368ccbd8;
    Dbl 0x4303ed0218e1e4b2084ebff32ac1957ec266b2b75b9ca0647ad3c5f6 (-0x359e3343fe2af6220fbda0cac94c0e4c8f8894d847d0486896b50008) 0x118b0e1e827fb51733e9c2b0e7868ac7db3ef2d96ccbb1e0dfbd81bd (-0x23c340c36a4ec64a26dd4639391b47417bf07bdb9d343e8e8be898b2);
    Add (-0x1) 0x1161799358f8ece8aea658910a933bc3d4e2c300f7f20333db1baefb (-0x22d00e761a7ac0fe24da662bdbd5dfe38253784023a4737d06c48bc) 0x12e1742ed371b050c468f100a36f8c3a9ad805ee197a8d83e317eab (-0x1df7635a87d3ca834cb18ec307e8b77323b42bcf733315ed2eebd36);
    Dbl 0x95c490126c616b328397496c2ded3f98c33f0114aa1223283ac39a8 (-0x2a63a3680a919c400198d821923d0d9bfebc19823b5fb9b345fe9d9ed) 0x579e66a25f741735f6b5d9ca172f28c3f691ca262f2a8c8f983676 0x375b5dc6fee4ffe07a315bb81d02d7eceab504c9eac3056785b0bb3;
    Dbl 0x57a0fe2f086f4fa2688651e15189b79a26ae161f8ae64ee02a7e4122 (-0x7ad00f176f3acdc9a2d337d88df1fccace70289bff55b039375a2159) 0x1dfed202aee790a4e93a9dfab903629e0f9439695e97fdee7a7650ee (-0x23514157392a4180c98832e66f2cb29036371e7f273ba9c3cc450af8);
    Add (-0x1) 0xd16fa36a5cb04eb89ff6ca45d59f787bc5ea4c08ab84f02c93a72832 (-0x37c8e34e2b5a558f6eb70f1d78ea418dcf0cfb2dd9f5def70e1ecb3a) 0xab577982c9e4dfa7211b2ce3365c6e3c46dd38fa24d0c45965363a6e 0x613e5c20128b2e9bb87cdb0f8a78ff7a5e4c20abad73e84d77ffe5b0;
    Dbl 0x9e81e95aaeb681ef8bc1e5f03ee2de5c2685633f80b964161e57b5bd (-0x9d26f5b4b8d1da7131c47fa8f751e31cc8dcf704346eefa803820194) 0x62249df8f1c38e7a2c0434d2272e01c89c01973225448acd521571a5 0x2edfa3211420cf72322dcf9eeb34af71f941ffee1639a462e2a66c11;
    Dbl 0x5760805ee4742b8dfa56fcb26d244e1dcebf17fc6bc4ecf130f4126d (-0x12b79c5cae376af9ba4eb02993e8a7e115fa9419027282632331468d) 0x1dd2bba106d1545be75ff9e606935a49311abe410fb3daa10d04d3b8 (-0x3bfe1649e3fb6f3a21823ba85686ca1b78e33fa3d0d660907077b006);
    Add 0x1 0x4532e609421e69b6d8fb3ed389056fd350125fc6e649c373af06cd88 (-0xd59940a4d5f97cada6da70e62e80dd95aaf713a790ebaa7667a136f) 0x12b47a1fa7f6dc02398fe0e08370e15c34a5f0609cea4e5543806952 0x20dda43a607fbe5f7238164209430f2f8878949d578aa2e9f7cf521e;
    Dbl 0x50e01c0f8c5b053837ecb7ef5889a8e38a29f026861f01159c8b1a1f (-0x5e1db5f1b05dd828ed1d07d18f9f1b12c186ed504dfb88a2d7ec1347) 0x198cd5bad601ea31ee18681c0368cde0ab234cca15e5e725317254ff 0x1a89c701ce0e6e17369aef74661e791390dd1da9158d1883d1723dea;
    Dbl 0x5c083808daefe19d9280355c5918d7aba5eeaa967b2006781f13a49e 0x95b81db1868ed897af64400cf0b874509b1e92cd88ec53e685ab604b 0x2115e889ea2df93eb815c5565dbb6c18b80d560c3f688c98ef1d837f (-0x92435a8b665d1d831e67d7fb57cf6fb7c402f501e046e07dc8435aa);
    Add 0x1 0x67326a35dc09584a5f6c34389f8b951555c4235d43424f9663bf2010 0x34b76bd41eaf22802e0fcab44ced4bd32f6ba4c6566ba6a0c999a0c9 0x29999b65002a1e3eebf28e323c3d0ea1e86e114b4828e42384e89658 (-0x30e9c7a44c3eabbe2f52c5cb3b02040c8ce7ae3668e1f67bd443a79b);
    Dbl 0x70ab8b8519d3c2d939e2035824e2a0c5c9bb0a9dbed3d1fd12d87262 (-0xc04cf8d4399838efc2b2e225b8c00eadf51003771737557db3204731) 0x31968d0826739aa42f147ca86032485aee3a4e1fe974d8e6e2383fae 0x4175ad461570b0ab6a2b2c6613f33d286a5e0110e738813278353052;
    Dbl 0x806652c6c4ff68f22b1a299b6217c5ce01c8e192b25ac7b69fda9f3 0x607913d5fb2f92fd6fe3bc8f45e50b49d877abaadc53020a20c7267 0x40667bacd6285502bdfe143108816de2721f4581b2bbb5ca185791 (-0x32c742feea928a10b6a4b47cc280a8b979aaa9b67dbeeaf582d615d);
    Dbl 0xe48316ee4224b83e89a840a24c039c30b31f9772d2b169fea61a5e8a 0x6298875bfef2c09fa5cd70ece5faaf4a938786f4c59ac45ec00e341f 0xcbf9c3f8dfb6eae1523cdd88b29fba8e0bb5829a8a5169d4d7a2eb89 0x46779ac8d82bec7f2c8192d2b7589878ca86bb8dce7ee4878d11d33a;
    Add 0x1 0xb3ba6e8f9226f903f151079ec3df2d6ef9ecc94f247c9f9015d8ddc5 0x5f63b75d4888e247ea4e8d39afeb379c1d52f078e0aeee9da5b7948b 0x7e2e3e619ec292fb762c0a27b25669c8da12139115703ba17758b04a (-0x87916361a690352af5a95de7360c5894ef37280aa2ae24276449edb3);
    Dbl 0xd4745de05a675b85109ca7d619734e91b2324594c3749720384d837d (-0x14b210d6e944915b0774f39b5e75c7e3b1ed88bb9ab471a02530926f4) 0xb050f060cb79e38cc16630f5edbeb2d6bfb7290c70e665ec4a2f6d33 0x33d8ea7368145b66bf27db4bd7bad97eac5e62431392b62d6c70f757;
    Dbl 0xec8da0deafa80fd749ec9e2923655172b865f3b15b31afd2e797dd8b (-0xafb431161c4df124e1e32f66c2511a8a4432dbabcbbc5b4784c03eb9) 0xda956ef52e42799d97437c0b3146fde2f02f7486675c66f76c5f98f2 (-0x47a60b4dab46b964dd6d2fb0e55dd7acb3a3fc6443a8d7c2b6eecbe5);
    Add (-0x1) 0xb59fbe5472b3da123902aef16054184489ef055a05cf4c14a14cee5f (-0x334a4288beb77fdc88b8e08954e07c95a84917407c512b3a0d388454) 0x80db46d1649a43e5185f71def182d41fde9dc42b1783a0ea28ea9a29 0x27d1cca571e140b86cff4a20858dc796f30011434816db2085c792c;
    Dbl 0x2c43bfb98a4b3210f3d2c3a85cf95f5d609e998fea1accc749d4d223 (-0x29156f3e09b2c17bd5c4114b5f283b03f18a863972b934e52b39c6e7b) 0x7a75bd5b23e9f6768c8e3f9d7432030685afa08a5fcf1986848baaa 0x285e004bfc5c808b90694df4f47630a26e0274757d88650624fee67b;
    Dbl 0xd756177eec56381056ac415c306c73c6cb82e35a0a7ec1e1aa04ad1 (-0x263f9037fcbf2e102b4540ef001408805d0c01a9fd2a7dd7c5b0206) 0xb521b86afc67a97e19b0c594dfa495fdc2c92d5a7a52fd2709f140 (-0x7eb9ba2f92e32cbb9e207cd68350c3862f488a3f2f0c94a467ca872);
    Dbl 0x5615d2aa8d5b8313a2c1f8a24d446bf89e04a641c0d128aaef601657 (-0xc3c1596733cbc05339559370d937e5a99df59d8790de2b11ede6eeea) 0x1cf2ab66d450ee9ee1374314506f9ff55f2663b6270fad6c628fb9ac 0x11f0457f2d75b78154fd89e74c1b4b223d1407cd21caa735d575def3;
    Add (-0x1) 0x1549d3bce6dd63371be01dc139b2d7911a1de3181ee6d71496d469c6 0x59a0dfe807ba1178d6dbbdb66547789cf171656583e56b179e60e88 0x1c532076ebcec7e76e9c9528792fa1d36790cc3689d6b5e9b97ebd3 (-0x6900bd63c198d0cf756bf60fab702ed7a5ea560453c3ea92b5f26f3);
    Dbl 0xd824df7d0a4328c687dec81ff7ee307ea1f6658d625c29108554ce82 (-0x615f338405e83014335d16d33ad2bfad50d0175c820f90568c8bf464) 0xb67e3e729f974ca684272bc2ec9df8a875e23b49dacdc6581dee80c7 (-0x17f889d1e9420eb5b1c5b07d043aa1d02989ff033a881c046f2bb8aa);
    Dbl 0xb41a55c1e05e87f933ae482fa2f0011de7501b0da1f718420889c15c (-0x15c7ffcf08503453d6a8981f7afd93f0c2e312189b1e1a1c5e8d25000) 0x7eb50b4e2ba0d43ce8c5a7d78d32cdc1986974733dc2c42cd9f61f67 0x405dc41f2bcfe5af0664d06afbef4d353a4e5a3d976d6754783208b4;
    Dbl 0xf50afedccadba344ac914f973feb25a5046610f4ed5e64e0c011e46b 0xebbea1752696b120841dc1c080de448667825434e23dba873c1a4296 0xea8e0c4b834320a355e7dc43cbcf1ba03b40d5fc77eb5786866c73b1 (-0x10917b7ba710bcf94390865b6e929acb8b7a9fa8ae98476d7734cb95);
    Dbl 0x274c31dd688006ebfb1f1bec9814901ba9ebe3cb2caa87ec7cb4f32c (-0xebf5a6468e25d78bc62e5769c0a139a27d09a87225e8df11a99b8c41) 0x6084ddf1b038f9e9cfb2432cf6ba7ed15d1a1d66c897c35e7a42b4c 0x7db14f3fbf418d11870da92248a3014267fae4bfd9f36a9bbed346e;
    Dbl 0x3486ad8547f62bb720abbe2eef5003290ccc867e306d5a7e4774c2b1 (-0x44716549d11b95fe07e4259d4e9a455de857952127e6ff09229ddb3f) 0xac6fd584260c01eba156075db632acbcae79bd545b5f01c7d698420 (-0x1624e095ca67171f01ed0f3f19ad8c6ff7e3f32be291add6f4b71059);
    Add 0x1 0x647407fac2cc88e2b997a4341f9d04bc53e58a1ae7b2dc52329e4899 (-0x8d59577b5359ce82db81b6806d37177d6091711a8407ec5e87188fb) 0x276adad323b0009569a90d9062ea2e11f04ff359d1080c045455878a (-0x12425e3d4a5429aab83fdbcea45e7d2fb41b147a51f39365c85c9ce);
    Dbl 0x4fce73e100e70e2870344cb827532ff0ff50a45e5981561a526b6616 (-0x1f67fd75ded2a34abdff83e5148085c245fc79f91ecc77d9440cb5b5c) 0x18e11203911ffb29eb34e3f3e743e18d49dd6c0be004470dcdfcc70c 0x8e9c9d79c9770545654271382c3b2af3e35297a6cbac9a3cd746c69;
    Dbl 0x12c71312ad2055066d8a73a3beeb45e2bb3761a51c074da1d337b6a2 (-0x16c99b074f600eb15854f18ef352c15cf75eb784a12ed967c6bad2749) 0x160997d48cd7b48b1a565acd1f440c7caca0014463a8722c4bb6cee 0x663263587c5605e3a32374a182c0534033049e3b82a305ef438c5df;
    Add (-0x1) 0xf8007ba4a1e8e1333952e46edebe68af4c0594e07d19752d36278f5f 0x576def541680e9d4519c5c7d54783c5b785d9be79397f104a4c1ed76 0xf040ef8f356ad1c8e03f1c694a55618206a178bb1d4a6ee1fe9c3824 (-0x69086c8960406a0f188db11c36118f10fe28bf56a8af2530d24738f3);
    Dbl 0x7aeac422634483ab6f0aabbc8205bd4444ec8cfec973b29b3b1860c2 (-0x13d44a784446d4163882a08508fbed604d523e97df3909a162718a041) 0x3b049a3bebbf735f898cb6f0450795001dbf00734fe866d1b3c8490d 0x413a612ed738fde514bc860e23c7cda8db08a8d52696b8f34509d1b0;
    Dbl 0x656628f0759e0cfb56529f47221c0d476bafaabb66a14c5011ad7431 0x4507215bcb921473da82c4b8c795700f84f96fd7f1f4dffff4088d80 0x2829c51262f876ceccd6b7327e18cb4b93d5c678867293149530d1f1 (-0x412600f0d4e25680868741966afd136ab1675570d59cb972ccf9001);
    Dbl 0x379dab9d80ad8869b14e38226ddc5e480a245e265263fd86c1d91c0e (-0x17f8277b54d629dceb7b7210c449370ee9b6169310a2bd68909de1) 0xc1520d99f863045a597989cf7369dae200dd0702ff99974886b5ec6 (-0x6437517a1be572f46b125b24bffb20f3aa6c4afd8ba17a1117bb75);
    Add (-0x1) 0x96b7d0174fec2338f89be30f80d9060671b74cd5ad4cdeb8b8c3a6de 0x3e2b7b9585c08df16b5eae9d778bc92a6febc5e7feed26ba750b547d 0x58bbebd67c22e0e04d689cbce777bdb6dfd2589c9cf9f4ffacfbf8c1 (-0x66d4657239fed1ecfb9904b2d55895da84ad0fc36359c0a87fb64028);
    Dbl 0xa6e8bba2fe96ae4bd36770dc98f13e1e74b653fc58de3863d600f66 (-0x2e1bd82cd953b7caa509588222898c02ca0729906011e5bb813a179e1) 0x6cd2a6ec032062dd96200b3a83035b76b213645805af7f3e4e92ff 0x7da835b5be2b0611eb132e4fc3cbdb95850ea4c3346a63efe2ccbfc;
    Dbl 0x4b4ad88af5b51f6fd15e00570acb3a649f2d5a65447e816449c201f1 0x9b1ae74951a54d7497a79e9c3e71b6e1b46194d5fadf3b594bf928a 0x1624f0c35378f7312978e2b90b48d2e277cc8b5b3079d00e3f50fec2 0x6b8eb6fb551ab4f0cea46b24ffb18a81281408b87913e05714b01b5;
    Dbl 0x4d1a9628243f50bd0bad839fcab610165bf7c30c8b8b364e9f293496 0x82dd05f5df43d2fa103f3ea08178d57f84c7be9e6d3ce59b330cda70 0x17390116fe088433aaf5638ddaaa5577ed7f873373577c8c583d9290 (-0x4112456707631cda362072929893efd02015ea39aca3c869e4fb731d);
    Add 0x1 0xad88c4126269f148ecb8924b9f25d518be3d507c4b25d57fe019587f (-0x2f213d2c610cf387ee8dda7c6a86b3224d812a1685922b4ebba6e25e) 0x75a22211c2b7e8b1239fdb2535e47a6e0eb5fff47666db2ab0a19307 0x108b8d62572969a877e33501cc4b420cc6e22286d335feac2142ad33;
    Dbl 0xbf891d71b327970562b531fed7fc9e1049c4d88ad52b0f98dd4fb30 (-0x24d2b7be6a78749f2a6da14a1968069d652b35898626af0cb74011d80) 0x8f4de3603069c8d04b98f4f8df1cd1d65372b39113e2561a4213c3 (-0x132c113c3db70f2e93b313a42f015774271fc46eb2a7c3d8aefd14a);
    Dbl 0x1274dc01b06415b0013585e5a083a4c6232b873c4cb0564843ed81a6 (-0x2ed6534f10561018dc5981a921b5060936934bbda9cb44287ce844144) 0x154a4485b68d4ef474511bc983a95477fbe2076772e1dde8045842d 0x5c6ff788c308861b30a2781aaa25c123e2432453847fd3b84cbd6c5;
    Dbl 0x81abffc898dead5a7de1fccd867112fee9f791ba5baec9d724bcd5b (-0x15a2ef8e69bba7adac15a4ece0757bc291a6e69b0557544b620e20914) 0x41aecb57df9de1eb9e544068569e21729321d49d3977299040c66c 0x55c2947c854a23cf7992c65648a21f96983a0a1d82795c0153b10fe;
    Dbl 0x42d86971ad6e332dbf4dc7d0a64fe4160f00f190ba005d1caa29e574 0x168b84f383dadb187919fd1881104088639501dab68dbf0f1c26b808 0x11744d50b8afef18ea99c4355088305a380cff9649a86e212fe43c31 (-0x1a52a883219493961c82fd035316afcbf3c811b5da62df6f9552874e);
    Add (-0x1) 0x8a6596740ac5961d077736d22f8c1daf37f6441ce742d45808fc11ba 0x2a1bac64126179250c239519a6d470824eab7de7408b310c38dfc8a8 0x4ad1ae852b99b6f90e628274faad689119da2c773d0e7bfa1c4c471d (-0x49e787dec536c1a0d3dadcdc2f6b22f75386228523f04a4f1579ff3);
    Dbl 0x2998d380f432ca5e0cb934b7a554067052ae344b19828603a3339b6c (-0x8a280e419c45bd8e91b7d304fceafb0adfdf43dfd32c09044220aa30) 0x6c24efb261814a34514b1ae681b437dc7ff0f043efc955d3924d201 (-0x3df9899b2eac284dc42f06e7153f17c09ab3273ec7cb349b343d21c);
    Dbl 0x1ec7fd89c62b1a2d4009c8fc307689a60855216bbda6cb3bd6d7183d (-0xc1714244a943d3d33679a12be87ce4e307c788298aeca8ad44bac9a6) 0x3b37ba871bdccfc32a20313421a957448b25022deecc3c851fbd3c1 (-0x5b603c9553355330c1127d5f42ff17ad55f541d3f51bc5933a7ff8a);
    Dbl 0xc4703c4eb2bebb628aa857d471b44afdd6ea2417a22b9d24f1e6385e (-0xa2fef30a4725e09d0d8edc1c94eb076c647a6afbaef581029a0178c9) 0x96bc0d8d54c571cdab6945854801b3dee4b85b2f042dc62537edf959 (-0x2803c5e8510afda679b5242e13c8259320757deb18f3e56b57f42775);
    Dbl 0xf8f35e6594b0ee12b1e4bd1b75a297d885fe9c42cda32a53ae605d07 (-0x1b5c2584925189e7f1a7d2457d7fb1b972161b437b7e4f74443e7fc3e) 0xf2186e4127bdd6a8c8f789966435943d89c0713b51c53cbfb5064114 0x29ee1a42edcdbe401c9c96fe91aae2893dd32cf95d64269be4691f3e;
    Dbl 0x707586d9b48177ac419df899cbf32791920bfae271ff3f3722d21c2 (-0x1b78a0739cbac291865596070559740374b103adba728aab6fc65d654) 0x31670bf307f8e92928e9bc687ceb84d5f7ea9ecc4ce55b2d510ddc 0xb6b428984112c6f6f14db3ab38c21fe49716a5d79e8ca7776b0b12;
    Dbl 0x9e43006813f5e26e304c14a2f2951d31bcdfc10a866e978cf0b0e308 (-0x2c03e7cd9f0090a122956e4be5b010cf2d869e552ddc9cf5aedfedd9) 0x61d6c609af1e2084c2a1969ab8e647dfb700104b8ead4e4aec1a4a46 (-0x5abe43ca72839095318b8ee957319711bacd2ff01b5a5cd356ea6e4);
    Add 0x1 0x572e1e3dc9a4a48be139d8d3bc4799e218b93a300e4d0503660f4d75 0x1f9aae3e185ca275e9def2b5acd7133ccd04a9ebda900abac64fc1a 0x1db060dce0d4e92e833569e39f1c36f65fa8a348840e6ba65fbac1de 0x2e34434a191e6c8f7cc196124ba5c4467b3a22771d17efb0c84a3c58;
    Dbl 0xb0b221a982384807e0866eeadf575caf11eba9213ba76f8cd89fff04 0x4efbeadc07a85fde312a20330ef3390602ee98c13ce95aaa86c187ab 0x79f56a3be7339d1eb2cb6b45e38ce69e398c07cc40aec6343c56b78f (-0x2ad6065c27d7e99c30a5fe26ea28cd338409e9e0a450ad3afaab45d2);
    Dbl 0xa80f65d98e2fc52f197bf64361b62b7e278533518b348c41482c55f8 0xa04b1d8dd5a5bbcf825a659b7c2b9529e4dff1614a4efb24077c9900 0x6e54369aa2a2bf7afa842b5e900f9c5ed4587f03adeed3de3618a0b1 (-0x16c3c764eadeeda2c93d155d8ff351c48210344b1dc2b4c2d11fbb05);
    Dbl 0xab93d2b4ae09da4e1eb274a01d910d7113c33112bc671fdb0f115077 0x33cd3372f44cf43999ad22f9f86df8c982655a9eded4c7df46659aa4 0x72fed0d9096df602710e361b0f0e516b03cc08241675f53ed2c8c687 0x53bb8222e93f2ccf9875fcff216e4c91faaa636bf79e54987a2249ee;
    Dbl 0x49a5f75a8a0fc84dede675454577c0d8ae37b6f24356429dd0f6b478 0xedc4d1e000a5cf148298e257170fa78f91da708e1aa21e2f6bfd953 0x153012aa6c72cf04783656bfc3982bfdac28b21ebabeef4e55fb41a4 (-0x2e1dc4a95480fb4dd0777dd14d1c78388ae341d6ca578f566af20fad);
    Dbl 0x847e33faf14b14bb63ab7a2c4736e89d1dfbaf905d0d95b888446183 (-0x910183384347a9e5261b3799e981d4ba6979b1c4e643ee5380541e61) 0x449263d1fe68e569bb948d8ce3c21008c084f8bff59e97458c583cd7 0x1ab645e4bb120cbff25a114130daad956f9cb10cbc4568760c340d9b;
    Add (-0x1) 0x6870e24e48f68bd79e63be698325e6e7e33dc66b273667985d37cd23 0x18e121dffd6f9f5335e381ba0e5c2d4ee643a92e9a865592254d9252 0x2a9be9a667d67a1d674d29234fbc3f0a7fcc21b95a733f861e8743a0 (-0x15503e0647ec72205d17cf485c502fabc60dbe51addf9ae19175058d);
    Dbl 0xd65978962ab49ae00f5c8cfed063cb4ce9ecad7084e6b91446778ae7 (-0xd30cfd33a495588fc70f033a01a7965bbfafb4b94889aa38625bca59) 0xb379b4e0209cc4a1ad70b948800a2a4288d17c843c5fbfd3b8a6b49d (-0x7f23f43408e16ce74a80bf959ccb99d13dcb67ce7ac1842c519d325);
    Dbl 0x381df4e98b782b35f946097c19668e0d73f2a111bdded889a6fbe4ce (-0x15cd20070aaac5f5634a2c69686a24fabb9122b20ae5893b4e9697639) 0xc4d1ea7943c330da66260c6db6360c83261e18ac25c99c6d336c80d 0x93214ce4d2884dff237d4835340bb5acea67f67071b473bb26b685d;
    Dbl 0x7baa10732c3fdc3dfa57d2739c15fa5b1c341c3123a1ad9c296ff762 (-0x8e366ee215ed0897c2d02134e0d791601868e3a03bc177fe1bd6a228) 0x3bbcdcc8868abbccd56e837bf0c7effecbd1bbe042237b653dffcaea (-0x3d33d15ad4f46dee87b42841925e6cf144b935b1f18e1ac855ef36b);
    Dbl 0x51ab810914949ba2b4d23019c9f243c2ea2f9a165b8f423309b95aa3 (-0xb44995122c086f58a558adc6cafa75cb75b7a125d1b25450ecacf403) 0x1a0dfa8d6231b0151abf0d7ede80d0c9d953df7acc9bb7ad8801935b 0x18e402e74ce2b511cf36ddf96a1a449479b378fa5cf72e0288589b1e;
    Dbl 0xd868161e3e055db77f1448d7ce52852af50c15a6af198a38e1496701 0x43bcd5493807bdf51e1203c141958ec2f4b45b98d583a4b0e1643a91 0xb6efcfa50324a8bd4fed95c24dd0adbefcf6003beadefd51ca08f905 (-0x3a5e165faed6d87a7dab512205924c191e85a70265f45b060dfcbb75);
    Add 0x1 0x85915b57e2e65d92ea388c845faa8e75d2b4f68900bae32958dc1972 0x160c1c89d52b05d60acec10c6db94a5c63bac876af3c7443536a93bc 0x45b05b71ebe9ffac7001aef3cb6dfd6ba6f6985c3fdce921dce5aee2 (-0x15652efe386d6a695e73c793b318596b64df611cbf7f3bb388c26bfe);
    Dbl 0x2eb23248ec1e5c6e14370828585cfd99050d8be0616eb81ccad97c77 (-0x142d7761655dfcbc510803a378f042fb1dc4966aa296d583509184b5c) 0x884861c2c23d4719f4edf4b76722776f19fa7ea9c3690850acd8c18 0x96624b612d19c0fdf5cedcf6cfde1800e0e832b75a6f0b9d4b8e8ee;
    Dbl 0x98f178a0423a8a51f2d17e28f79597eb5b4601fc56e9d633f0583642 (-0xc4a84c2c9551ccea3f5ac811671cf44324d01d0ebde1840e9ee7a4c8) 0x5b5fa302a538d8e37a9feb09545a67614f6f3bde9a39fe452921759e (-0x1a7ed082fa3e7c3d25909b4159d14af8410d37719a8c89874398c7d4);
    Add 0x1 0x8d474617b792ec6ada7839c040e8c5ac9a96974c933165a77639e06d 0x4a6d362d21666db2db9e61b39b39e1663356a7f38810f80b62b2e99 0x4df7970e1490a683b141eb4e19e23203187f3ca147e9ce5c1b0a14f0 0xf677cf148f623cd77864946d700c054c09f7c7e9929f752b5adeaf5;
    Dbl 0x87c62a18cdc11062bb113485666eca6e9311439624abd6d231e374c3 (-0x2d82d627438a66377cdccdf631a9c790ba5dd8ea20347f7a3b4ad67b) 0x480299cb4e4c0bd80cf7c1be7e5d070658fd74daf32c154f761b9422 0x25836c0acc371e140beb2bac2bb28e861735e7a25d7f317473ad4aee;
    Dbl 0xd457c94b9cda156f324bb8b17ec8beb583546c43dfdfc4140270b8f2 0x14c1cf0da5454e0d843e0ebb60be1e1702e25dc8a1428b66aed53ba38 0xb021837fab75a25e7a6d4967eb7efa026ac6ea5d2b347ca814afc43c (-0x818f61afa8cbc4344516ca73acee22fda70920780de405bddb37f389);
    Dbl 0x5f42b163290063716ef4c4c9b81ec9210feabba2c483a073eb8bb678 (-0x1fa64a6234e02fcd70696474ef45aaa3457cecf243debf42b91482a79) 0x237291078a79b31cbd37c547f44442e26d9922f603222db6da3bcf04 0x417cd771d7c52c97ae4be544e190aa1908e152e7c61fc07494224cdd;
    Dbl 0x9c4b4fb8e085f7d5199c9d08144ccd0d50495bb4c1cd16f0255e6f4b 0xb2e18fb7c7cbd101dbc8422097f38d4646fcfd0fff6856beadfaa1cf 0x5f6bdf5120ca74a122886119b5b1cf667a25a87f86e8b6cd2d97a80e (-0x1c5e3bffcc84d531e28b9d0b89c3fc695813fcb1911722c25eacd9f4);
    Dbl 0xf057d37660872aa86855919e17f0f6fb2a28a699f07c441b60b90ccd (-0x6f860ee8b88a9cb43c2d9d937515e5797102b542fa612e3d993e4a4e) 0xe1a4ca9f5e1f65b6b369f1caf63ed6904dfbfd50f0dce0f751742eae 0x1a6eb5b06e0e63b924cc49349d8b64786adbaaabd64eff966fcdc6fd;
    Add (-0x1) 0x989943a7acf15282df52dd8a8e01bba23848f62d21a21f1e8f84a38a 0x40b5353d5bf0eb7ecb667fba6e65b59388a96006eac9d4a0db9d8f1c 0x5af65c190dac7cc97280aa22676b4bad6ac6eea13085072cf3d3e62e (-0x3ed8e945b95159ea83a6b39805045c145dfab2f46f19215f0da8975e);
    Dbl 0xfc177e3b8fb1f6dd755506de69b4b9b0ad58d7260cc620d847ba4c09 (-0xc6e20d4c12fcc070d44797f3db0a6f4848a240d811d8d306f2f44cbd) 0xf83e42ad2fd8df4d167c91e3996680f3f8ca0954f7f38b048b8e485f (-0x457b08d5742ffd99a9e8842b32d889bb692592c70651a6cca5a1b592);
    Dbl 0x88c4a42704ba762a57cfc02931c6b5c98b8a8ad8ce3cb59b22272ee (-0x2d4c497e6ad8a6ae1a7022508b6d6a655f41af4473148077a9495b849) 0x491185753a075f13466fcf343249d5998642725c83f5afecdf30e3 0x553988d4fb6c2edc7e741110dfee0bdc9d4660dd5b4398df84237d4;
    Dbl 0xc1ba7c62e5ee47848c7a5311c8ce3a9edf253ced274ea6ee38c10f3b 0x2270036e0e5b5ac24708fefb4afd6ebc17196a81306fa383bb71c134 0x929ab7661ad75b0976a7e64fc6826ad4203dca8c939b0ea782355418 (-0x3e9c3c236e0172765b02626c20988bbc8a4f1c9605dc3e3a8a380618);
    Add (-0x1) 0x1a12b64ad426736cc27b7fef4dc0e567fdc002daf1e74226a77bbb5 0xf3c842be9cc725367ec58aa7986e44ab5055949357dda80c7544e 0x2a7ce65576c206054f583b53d31841e933de75e1028ce37f65156 0x680479e0380d127a685deaf87563bcd7d9c3034d1132c10dd1574;
    Dbl 0xa1b2bdc77d4ad94bb398200d7b33de153e44baef00ecabca1c51ae8 (-0x14bf556b0894e75ad0a58e1de2cb38b777cc9586fc240cebbe1d8c648) 0x66224f8161b28bdbf1b4e0d3a3241e7266219808706483f892a3af 0x1d8af254fd7bbe15c578d3b8cfe54953e08cd06442f5c900516f09d;
    Dbl 0x85cf210f4dc04737142c85b4bc538fcda1aad50359a028941d6e4adf 0x25c7369c93a8658fe4e97828d723b971c33072d913e1f2c369658a92 0x45f0dff061ce79e82c8aa9d7e6384a8bc29d23ec7c0bdd7903ccf663 (-0x2ffbdc66ac5d11c711c4e5747fc59b551fcf7e546ae969e357eca6e2);
    Add 0x1 0x4777dfcfb0d322711dd96fe8d2599ea766f1f830312e3a67d3970d04 (-0x8d8d408e75652f65da95c5bc54a403d155bc807446e7ac39db33254) 0x13f3b6470ad6fff4094e1ea599e04a867835744d6cab443d164bb9be 0x2975714cf31e8a6abad624ab3001bd44c31098c5896736a02d48c83;
    Dbl 0xec351070999107486ab7741fb4c40509bc31efd683c9c00077e476e7 (-0xb1aeeac88b6b814376b53813219ac7f24ef793ab88e68886b54af95a) 0xd9f1e14f6ad1403364ac87a2a9410bbd3d2011a860843b192ba33edc (-0x1ed9e55449984f188837f05e94b00f55a8bcdcbe7a6ad8d78a77c4f);
    Dbl 0x5f91d16eb4caa6f6692dda55e28c85b4b1d26f5433108bde9dfdb24c (-0x14d6908e20895c6a8ea1a6b5a652e663712c284d9b409c874b1aee978) 0x23ad8c7f14ed288ec7a69cb2c301c11ef609e31bc9c3991ee41aa9e7 0x4b15f9f6c394341ae9828994aab3411ad3ac47c725912762e7f8fb48;
    Dbl 0x8a9bb49102b0316e96a5a8f1414ed45649588808a03951341d2a164f 0x656857dde2f87bb5fc3ce8838eadce70a578aec54d62614df99cc130 0x4b0c3d607ddb7492e777c3e807bff76292f18159a6775839f49d9a29 (-0x732500ffbd9137951f04a2156359b3cc02b0f93cf936e31b5f4a902d);
    Add 0x1 0xf866731e718b61509f3e1581330ed1b2ea98c3f4614df186b755601c (-0x22f64672430cbd7ab54b294af157fdbab05dc73bc33f4f88db6003c0) 0xf106a80aec04e53fc93cc4e68ee072ba598988928486cbbfc5eb0e62 0x541525453b1eed64e16be894d7df879106ba9da268542fc00d378121;
    Dbl 0x86a56b400462251a306c423e35a8498891bd075c20415351f5babff8 0xf5b488511bdbaead6c0a6bd45c979181784b46ad8c15d7929f15d48 0x46d1972a720af9077a9d694278cf81815ea6d490a98a0caa3e73b6a0 (-0x3cf75bb2f065ab293baf15010019e0d5095173d4bca3aba117654306);
    Dbl 0x6ac487b782b73fef76f7bdac0eb4b01056b6e0c12b84177673bfe7 (-0x2d25ead0de66dabee63a1f12d19e92cac4835d696e273a3b45680148f) 0x2c8757441132f8f59f5dec5df908395c1985367beb1901f7fbba 0x25b7989ab4a4b2240bbff9ecf61cb049dcec164edc1ed6b64ce39d;
    Add 0x1 0x3942bd7292058c29a29564012b1e19d518e3aea4b55c7d1536dd87d 0x59fd3cbbe8d46f88505d78ab1f4012f6561f171ec2d476496191db 0xccec9c3404c2229610efeb3bc54be3b3a6f6964da3ecd09c1fa44 (-0x9ac4d7dc4dafd886ec4d02ec9d31e2a405ffe98312eaa121f6c068);
    Dbl 0x3546106f1e1e2de163ee90f09f906e9a64b40f4481bbcb7a93b26e7d (-0x17073c9bca6a7550dc68887a7eb180183f48623d026f9fdbf6cf5aad6) 0xb1615fb004b0b7f52167abcfd212ed9ef67ee82d8f80a6e689090d1 0xa7fc7ecda46ab8c7d5ba57175d77e61dd66866834064af9302eebbc;
    Dbl 0xdbeaf1486768bf4d349dca9ef976c0f5e3ffad90b8fbbc0765b01411 (-0xc1ef747903a4a45fbfdaa2e180d2b9df54500a91b1c6818b37f25a15) 0xbcebd06fdcb3a9f95e0a966d37b88b68d0a16b9d11b62192ccd4a718 (-0x357cafdfe7afcb69ef8dd32e24231689ad834d9a6809f6ceeaaac481);
    Dbl 0x827206492d594b2cc10044c3520ebafe4dc1fe9988b06802bd4fb038 (-0x1662f1628040dabf10745ccc1ad636ad4c8cf62469cbab082580bdcd8) 0x4278012beb6296eb7c5ba638c9b7f58c1da49216e281ff93e88d17f0 (-0xdcd944e4735550f404247af8246fd09102b42b50bad61da0ef439e2);
    Add 0x1 0xb3d4df9a0311563e38f5a0a9a42622bde486bc7036b7d4f27bfcd4ae (-0x280a661c3f9fe78ed782c61cf0a72810be6d65a8191933b45fd61b10) 0x7e5361b47aad0151bfdb68c9d0993b9b80cbcd488330358be78fb620 0x5a69ad3079385fe79c6676f6355343e747796ff30fc49be8afa2258d;
    Dbl 0x127ec4a08139369a78690626a77431ec7529e755e566fb208444a22f (-0x839a603a6f524e4282aa7e388cc7b1b4e4a70dbe7cfe8c27ed5d2ae6) 0x156126cb7316a80dd58cb87dc150d1abbd3c93e71b2c55b86daf4f6 (-0x20dc6b9fd3a6658ab7d24ebf4eacf4b77d503566c285618208ae45a);
    Dbl 0x8ba540fdb588fde9661182e9504f9e2849812c1a4901617c88b9dd5f (-0xde179b5aaf5c53e5d19d5bd6946a3bd4bde31a26e1e9610bd50b444e) 0x4c2cdf405aae9c87942a29736c31c3f50d29fb3cc36cb7abe0ca534f 0x4b2dfacebb1bb7462089aa510805f0dfbc7e4178e5b60adce248e3de;
    Add 0x1 0xa8b6f220fbfef3fb682fce6f93ebfdff39edcc3a792b62571708c946 0x775a3a7adbd0fe353628ce9ff17542a1120044587b4d68bff7bf171c 0x6f30a08876a74f6adf49231874c25cd864dcf2ac5d0bd46a557609c2 (-0x4f72fa831988e314015339771cf0045dfd8ceb92bf0710818129c9e4);
    Dbl 0x6aa2b4c1657e971961025cd3044f30e879d96cef48c6d991c4ecc62b (-0x60a590a3f53a124dd45f1e0043bcd5a33855bc34673aae64ef200028) 0x2c6b25196c71d22c760d625eef720b7d3594a99444f515a03316cba4 (-0x1d403e2c4569c28812fb8dadcd41a4bbd023423f89e8d7cb5107f463);
    Dbl 0xd6800ab6822254897932a9fa3e65c4c508949205bdeeded655374c4e (-0xfd15162c5228a4c96084d302dfde63a07063f2dfcec0b9fe32f1fa3c) 0xb3ba51f3d8864bf259abba3ed367eee30e2d7bda9f2bad6cf7a5cf13 0x48d20ab9be9e28996b9a3d60b9405d89b6f25740ba99c7154c83026e;
    Dbl 0xde6603f568c0f6c9f8cd8ad21dcdf61bcfa08c112984dfc56d42908d 0x77cbe7a6ef8ebc014ff47ad4775370c63f34b67578ceec88e2941942 0xc1351784c94dd181267534f14cd298779a39749c75efa5ee1b297c72 (-0xbb0539c9f458957915b2a30df2d8acc8dca78239a2cf47cb816b83e);
    Add 0x1 0x25786adccfe5e685ace81fc985e3b0c1add3e769b25be1fd4b6467ff 0x955d48153e6a4b7f63aa4ca0fa5097329ed29c398a93595f56eeb03 0x57c07882fb6f6cb202db501df460efb612e124a0f246bd6790c4e96 (-0x1080ef129c94b0cec4baa850fee8ee3e3bd8430cb67dc023367cb87b);
    Dbl 0x9339f61bd7449ceaf592f99addcb0da1ef929d1c53f69a621d80f75b (-0x1c12591e00edd30fb043d327719ac0b7dc85067bd8940b37bec9249a8) 0x54ab9dc37e382d82b1b92197abe2c7491e3b5e688eee729d93d99858 0x65b871130066c31ce0c042e17063602dea7da0b66a017f2e83efef8c;
    Dbl 0x20ce8581e00e53c849aa4d3123cf524f0664e964ff848445158f4f01 0x59e07388a3a16d9a74e0609ca79da44f3ed10762cd6b2968882d42c 0x43447fb9aa860b35e58c1317c1de325ccd6a30e17666eb03f9dd2b4 0x1d8cd5827a6c16d0790b14e183866dad0d698c1a8ff207adb420aab;
    Add (-0x1) 0xd90ba87c036a8dd58c1bdadce2e11aa696e08cf5737a679bf387e4b2 0x78a7d66387b8ff70021c3c453b28bc5a833991c892bec0c9e5f10387 0xb804c42a2755f02b614e9de05690aaf639880ac83e0927fc0c919b3c (-0x951e1359c891e125e84a64b2dea9a35e6721ad7efea2dcd5c9806688);
    Dbl 0xdeae4b407bca971cad8d353198fed594a3b6395258888a38e51c6e80 (-0x1110dd25088054c355cf61196ed62685181d9c670e176a4de6f6ebdbd) 0xc1b2c12e387a7e41fdaf7dc639c6093350d7db123ebaa148d096d7b4 0xb3aa2b4ae6924158f994e091f15cef6c9320ccde1f4ac7afc85ea3ee;
    Dbl 0x36361e7b6c13f0c9b9983c860bab5ddbe7a2e6fca5961c3b2f1b0033 0x2bb6a7f0531ab55ac02acccbfa5ce81ad2b7a903f9d38bc209216f15 0xb7ae04cf14b2ad464a003d1f0f7a60c497b231685efb72e0c4df962 (-0x108f59b67b1b4c63ccf6d96b114e840566228e5fec49ef16ddd10c9f);
    Add (-0x1) 0x7dc9c115e9646ab9871705ab04dc049a64fce005d9fb7166752f9832 0x2e91d3a17d15a7e759795b6f08241c961090ceb75393921398d2b753 0x3dcea5902bf69bb24d6fcf7a0ef6e6021d9f228bc988cde01dd4ad55 (-0x45db6d20671583315872cfa67aa6096b17857f32d7a159d78d571117);
    Dbl 0xf334f05ae55ced0320242b8e5ab03ee8923abc6dbbb9d1beb00dfeb2 (-0x1b185e8406ccb0de89637edd9d867416ad00d130d8ac1c7acefc65990) 0xe70d8b3f1606260887859d9b2a4792a2ef1ceb028718654ddce1d046 0x2cfd77730b82eb50f32b235d9b8e0af15e68c93b299af6e52f9185b3;
    Dbl 0xaa8f0ee2d4f81004247f92baf397b237e815e433b6a2e13155f369b9 (-0x97d7e811bd51df08784d3631b8d71d8013618d2a3d8287451b1f576f) 0x71a24fb6e520faaf3e02bb9a8327a7b984dcbd90a6e88728dda2c58b (-0x2b3465443fb1794c0c74c5a52e181b1db8c188b6e3035c1b8c0578e1);
    Add (-0x1) 0x825664b3f177c1861a6bc88330b003aab7fc00a37c8445a9ed30224c (-0x2108fc0ba9a36a5b423325d879dcb43be5c670e894e90921f05a4edc) 0x425bdb6e91c0f023595b50a117af594d50765f464a7e0678d23daf24 0x7a0c7ff583195f684b025f612641494840c46243eb201f9b32e61cff;
    Dbl 0xcef878b2abe0b93e39d21bd54e9926d868f16690d24f642f9f99c2d6 0xa7e35d36b0169c0554c9324cb14bb5bc351febaae187899df3719824 0xa754d3699fb2ab5d3330195c6e3c51227c42b930d7d5e5d3d52b7ed8 (-0xb6f0e496f8d1d343ab487609e4782ac3f94cada083dff41bab1defcd);
    Dbl 0x17f797457ae876d54eb09f6fd7ebdab3a21a40daae50baa5b0dae166 (-0x27830dc1c955cc0d9146082216c5d91e062a67d8f8b0068399e383a61) 0x23e6ca3bd8bfbc95c43aba572b33bcd62be6f22a65ae7088b8c74ad 0x41bcc18db81fe18426349ba3b8d7f46afbe04981113d1861b58753f;
    Dbl 0x68720a49500288092a58f7ea64c165474119470d1ca8eb7541091acf (-0x12f191331199f03fb507def5ab2cfc6287e69e9d0a9316469216304f2) 0x2a9cdb28bab7200787a5e2407ba093bdbc7aef3ebcf1f5b55606f50f 0xd478954eefd912bb658fcb33a243d399ba1263e394a6e1b47d49ef5;
    Add (-0x1) 0x9a6092428fb54e7e1c364644e1b0fc5b1774bfa8d06805e5d1c92042 0xf11e6bf0b264d661e79ae181d4b44acf8b73725c278d4847d61eb05 0x5d1854661a61e7a3d036d48d013e9fdea5a256afa145ee828d29ad32 0x31ef3226e459ac19f3d143d18d931bf5b0ce940af1ca177378ddc69c;
    Dbl 0x4a48083aa4a5b99d28c37067b999c898b14db87359084b407027e945 (-0x1f2d5ad4ed1ba954322cecb4830334305fa37c6ae40bf65245faa95a) 0x158db90688702440a48e99c808a0326c32588eb5277667b532a448ec (-0x374a8633af08ebbc256a746b77ce731bba85b3d3cd2e71c1f3eb230);
    Dbl 0xccd4980da00d897efe07c3405bcbac766246b05ca1c6c51540ade963 0xb84b7a88f2fae70346e89b93f076393639872a3b7d604bf660e8b542 0xa3e382e1e7f6d857d7e8cd2ef7d3917bc60d7151625e99eb5d5ea86b 0x3905702f91855df3cfca14897d00a84248120a805aafd808491dd156;
    Dbl 0x6f00cc3547a57941507fb75da6eaacf0cad2ddc84ca94556c6c8a6d 0x5295863065d9483ab1a52e91f37243cef008ffa949bd3492baa639b 0x3021b116d706746d1ba04291da261be127a0fa79aa6b7a59805414 (-0x58640b5423c483d1306e4a60276ce1b31d440f2369f7eb3458c0479);
    Add 0x1 0x102be65994385bf43c930a5e207247f2a35894511a49c09eb46ea899 (-0x2517a984e14266123d79322919dfbd72d01b287330f339f214dc784) 0x105845263e3ec1b15dabe1656779787d863bfd74044af9a962d225f 0xaed5722c0cf986b58597f394380196403a846b0e436df164e66fe2d;
    Dbl 0x388b7da6020886ba336c67ae77b94bc30b28dffa0bb531cceddfa7e5 0x552eb7a5d8f6ca603dfeb20150e01a0e2dfe1286c52a53deeddb4fb3 0xc7d52fa50d579d6bb57f72b1506493554a41c0a39106f09391d11ab (-0x1c7e05b6168eec957300faaaee27757dfcb7de22668e65dbc5488984);
    Dbl 0x6f3f3d37ac2fd6f5675cbff056ec48d687f23db79704cd4e4b4931df (-0x1604ecd3b5e84bbfd119d1dc2326abe940f85c391d5396ffba8a021ed) 0x3057e6b5775bd01ed93af097e67e7c2f8946ce774244f4f432f8e8d0 0x3b4bf61147bedeb131852d3bea2a13fa216690b2cab9c7212d093360;
    Add (-0x1) 0x37ef91467d14387e7e7d989197c96039a5bd36424ec1c4685885bef8 0x1f681cd2a072601849d0ad5bf64f61c2d5b5054a9911c3ca8d7331a1 0xc38d09cddcd292162b5174d4a584f615811a3762a1a8d09d5222a77 (-0x67b013ec2aa38615ea28886f68541e2cfa16ca975d226102f32ba8d);
    Dbl 0x3efff8db0236263bfb22e51b47d55d5c1d268e58644cdb7da951f28e (-0x284278f09131525573deda74bac50d54f21daef1da28feacdece4998) 0xf80fc7bcb49b20aebe1bbbe03ada70c202ab9b732401dcf45b5007b (-0x4ad0318777070008bb9263ba52696a2b5a0ef06f3a1cf0629bce07f);
    Dbl 0xa4afbe0e480d3586e179a583b76c07aaf285c8c75e911a997c672acc 0xcd4a65b145caf0422a226aae076b06137d13632a2d716867a24c64d0 0x69f1a427b0f0a2639079a09ca1cd42146e9d7adfd956c6c05f78dd0a 0x2d2f22794853c9899efc56209b605c83e50c35254e89ced4da569788;
    Dbl 0x355d4e4ea4f0ff701bf39ffd9290f92f7d19f32c97d961061964e82f 0x39cf0f8c8f2b31285ab90509f365e903ad52f020b16a000dda7fbe49 0xb1fc46e8d63a589cbd0d2c24fc59ee919cf33b37b8f97604036eafa (-0x2d992c9c1a016326f328cbce326a92f0e25cfff2b14148cbf8078f64);
    Add (-0x1) 0x4a96a11d52b34eb70ab779b2d40902e804f24b16dc3d423e392053b0 (-0xf911db55fdc448fd13405497b49f13f8e5b3d1c16bafe11a4de28fe) 0x15bb6dc627927903710c0e55a3d4c567e105e641c567cf6eb669c844 0x18d106152f9b5abfc7233fc9753b15dfccaa9ab06c7a0461bf66f2b7;
    Dbl 0xdf2430ed51d97a59b8bf46bebc943077762a0e7eea651b558ce13274 (-0xffd7244f57d2b82942854cb08bbed817c6cd47e89c395d1c64e32cb5) 0xc280125b40b1c304edd2baa16c5d9c922cf717cff3d60c2a42d5d1f4 (-0x42b441b96583877533db80828def101840d4693bca03ecfb951becad);
    Dbl 0x3bbc2729b975d3a73519d321e798eee00296491c3dcb9f31afb952ac (-0x216026fb25adac70e7070d349b922707ab05448234b89df7cb10312fd) 0xdf04456c6c271ecc4a6251f6bb987a7d261e4631f950cdb1d9d73e3 0x38773e61cbb01a3e3345c7cc09a9b9335a39400537fd399adb90de9;
    Dbl 0x5515404b7dfecfdf916b29255b95d576d377702e2417fb0548f7918f (-0x1f8c6a30ce3574d767681d46f4614155bfbcc2d9388e4ade885f0ba7a) 0x1c471e75be33b71b0a7f6f3dd4c1d742b822585ba7f5f83ac1065608 0x1eae0763ccb5ece9f66d581d68b12451c664a244e151e3c288796f4e;
    Dbl 0x7478cf0b74383024256929a676819d51270d135ca3e3b702c3153967 (-0x5f9a854f1aef1a78463d6bb29ea9f6ea9465d2d5e39788d53ac81516) 0x34fdb4a5238366c3f33befe70a9e96ec16e5f0595d3fedd69b581542 0x4dd4d472344a0db405bae7978d341690096d6e3947469fb1afb0e7a;
    Dbl 0xe3e596ff7ee67cf04459de7accd168643a8d09504efb844568fc590d 0x2f88882a0dfae2d8e29e4971b6fcebde0a983e6e4a9b916b4860cca2 0xcae0f7b0993631a1c78fd2988aabdaa4ae1968446de3f52cb0d42c4a (-0x54523d4a832970a0d80a883d12d26fff506e1e72ec1a8008820ef248);
    Add 0x1 0x443caddbdc189625b7d5c4bd0675cfa79b44b31c9c3a63ce99c6a5f8 (-0x5b272507706c8b305d7df2d77580d6ad709e423c560b393280d110d) 0x12304abec20f1f95f591e0256ac9cee5ac5ec9b494c34b9af986082b 0x2f8d617dc11e5b4e6db84a64a14e374be9ad72dd134bf7f0365c940b;
    Dbl 0xdbe56de39e6e2f110aa455ee320707e16dd1714d7d3f677cd920ce8d 0x20460aab04f5077a3cb67c9345a7682f4c6b98a7b536999946e7125c 0xbce257a1397594f38a3a61d59aca056ddd88e578b35a7a1c59c2614b (-0x3ec6d4df8d910ff6fd63f8d517888a7f7be7952e13c747bf3d0d1fc9);
    Dbl 0x5751728ad5821c22791f669197736e2efd287fc2be6cfa1d684044b4 (-0x126d1b8ecac3884e7ba67895d8ef975394e39a1a5d73f035adf078d) 0x1dc875c40c397ce7ff8acb925def5f7f9424858f799f709e8d7ccf56 0x20f6f49e225ecdcf462009a93574c6d75308c96953a7e20182c954c1;
    Add 0x1 0x9678d5e00a25ea982ddd8f0f1c636d2e8759dfeb69a0e1578ba5a7d9 0x6a255fe5e2067d65df04936653809c5ee9eea58c0968041d8aade14c 0x5871d3abc09c876b1f8d65f051c5c0606dcba82644b266e1f8dfcf57 (-0x88272cf78c7f93debcc76b6e7b770359fae2ab69699396ffec64f213);
    Dbl 0xbf107ca03148e03bd067b8c2146190ab800011f009d2ad9f6782032c (-0x1b50992faf17e15d5d601dc4a96d4a79b2ac980666cecb53cd3c22588) 0x8e999b06da3c7bb1864409e77b24c22c00e903d2149c62a8cfdb3e22 0x239d560a49c3a41647a0492594288e89451a9f3baf617332cc3ee475;
    Dbl 0xdade19c6879a80ec761d266c808fee54df733f535c1642c750e84e78 (-0x82c78adab65922129b75332fb575a9ebd6995c5b31b852fd5feaee9d) 0xbb1f0496d5deb3fc8b486e1097bae69d6ae0cd23c647751da7746b68 (-0x30e13c062fdc75f0b835ee8b6acda024052d30efb30744fab6981c4c);
    Add 0x1 0x82861dd42a3bffea6e96a26a8a26784d7f441657700daf0d5fce7deb (-0x1ed964419a9622d8b42d49d3a67d443d480ec495e6fd9781fc0463df) 0x428c7c8eb87ae821940f7a04684e1beeb50ef11f7dbe36075c987c77 (-0x5f10df251db0ded8caa03c6960ef70ed0106cf4a22aa7683efc95e7);
    Dbl 0x98df0daa1dcf86f458f0fbebd1697e6ca94c3ce13ae3ad68568e0cc7 (-0x26474f7806cd5d79a1673373bdf0003673d91bc411dbbb1abd6f0a784) 0x5b49a292d28117e1f61dd95c699bc9834366473f15d50b9e14575806 0x5d88a020f6b3767cbe412d6c1e6b64038b226cdd9438c79022b5690a;
    Dbl 0xbee99cc6ec9ed311b9a6ce59c5fd1f80c685e71c7a60a5a58101b649 0x7accd685f073751c9145d5b350bd58fa993e2ca839884ed7f4cb96c8 0x8e5f99e60959855ef778dd514105ad513236679b2b15900dbeeac3f4 (-0x5499fb048f19fb95e02396c7c66a8e18d5a03f22ed3053f7f077712e);
    Dbl 0x718018642204aee8dcaf881b328a4bf422e79d6c159b2b184eb96419 (-0x1c9a27d10db3f49881d2077d88cc911bb90816f3b2dda470676d781e8) 0x325255a0cc7d14a3f4a9338939def585eb3ef8474556c78e524f80cd 0x2623ab9cf536a51acd6c9f9d1f95e7a10a1ba856be5a9c5f84afc6a1;
    Add 0x1 0x2a1c0d242c7461c1da2cffe432ad1c77b8673c9d05ef769645bbf69d 0x962751619a3f6790e667709d2ab1a2c96476614393496b4852c4847 0x6ed3762bf2c9b29585fe3002932b3688322772209ac623ca1c604ef 0x8816afbffd64f5919163d19506d4f31edeb074c4c88382ef5e77afc;
    Dbl 0x868b212e78f50554cbf8ee1184b26d6be6d84096235002f953ad25b2 0x319f9a43d8f42118573c74c688228822a49f4e2cbae7e54254d1fb14 0x46b5f259b364df476c32801f0c6b2c8810ff137e47de29cf1616b4cd (-0x211583fd7f4b589bdc1a0b921f754f2771598b4af8e9eb81ee74c40a);
    Dbl 0xeaf07bd2d25f8acbfddadc0ba48ac179a67331981549518f0d2aa97 (-0xcb4c9c77868f5621ddd831fe4cc038493dbdc2e4607ae8978a05f11e) 0xd79c8445cfc560a6cb90b49da4486ac43e3722c2d8b3dc811ae050 (-0x49e6fba7083aa8ea5bf2d81fc077c1ce610a992dea6bbcf09e921a5);
    Dbl 0x95f6ebafb9d15413f800b7b37f09dd45036b454477367320e1490c8 (-0x222451317b95125f169d0e908ed36aec24950a0aa06fee8e727be0140) 0x57d95c845d02e1f2b87f4a85a1c16c2853cc29c97573c306e30657 0x2d52efdd50ffd1d4f509c17fe96f072b4ee89a9a89c2183f5521224;
    Dbl 0xabb43713fee93566afdf6d1e481ed3585c87d8ea6ed4b3b99a7c8b0c (-0x7ee93045e4ae8069d3bc231529b408fb062388af263a34f4f04ebc28) 0x732a407236839e6250bf7532080afe6d80b65dd186062a1f23a455e2 0x53ee684e80787f089a2222ab9367fa20ac00ca374eecd5a25cbf6950;
    Add (-0x1) 0xa55effc5e247d4b207b08e12f0c4bf7fd37d1137f78a1cf4bcf9c05d 0x6c63d682f40907d4a19b0bc1c8b6deebea571be03c1fc2fa794ae62d 0x6ad398f5ea8e96aed4f229d052162b79b44e84f4a6af6408a0f4afa8 (-0x4d56b9b949010f36c654d54d0a43845ebca86d71ecdd10e6fa19b8bc);
    Dbl 0x60c80e373606c6903a854077467814d774bc1153433c676c80c9bf2 (-0xd1b07c53c749adab7fc6bacd578538fea03faf55e23478aa1c006cdd) 0x2496a6ff9f9395536d4754e0a8fd4b7110fe4360dd958683ff8a9a (-0x24a7e7f0442e1bd5257570b639d1f97e78892873609dc09c3433168);
    Dbl 0x36319f0d09a3cbe7e2db6be07e4f6b527eb7893fa2856c4735577a09 (-0x21aa38a2d2c7c0720c36809fd7c3427a3db922a993b781d96e5e30e51) 0xb78f8b7c5dffd5d54c317ff352b9235c0c1955881fe078107d4bb7c 0xa599ce69f8ebb3b4980c83ca4252d6ea1a1ceb9bba3a920bbd530c8 ].
Lemma chain_P224_ok :
  run (c_P P224) (-3) mulp_P224 (c_Gx P224) (c_Gy P224) (1, c_Gx P224, c_Gy P224) chain_P224 =
  Some (c_N P224 - 1, c_Gx P224, c_P P224 - c_Gy P224).
Proof. vm_cast_no_check (eq_refl (Some (c_N P224 - 1, c_Gx P224, c_P P224 - c_Gy P224))). Qed.
