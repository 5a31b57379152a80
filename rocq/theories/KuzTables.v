(** Tables of gost_grasshopper_precompiled.c, gost_grasshopper_galois_precompiled.c and
    gost_grasshopper_defines.c, copied by a script.  A 16-byte entry is written as the number whose
    big-endian bytes are b[0] .. b[15]. *)
From Verif Require Import Bytes.

(** gost_grasshopper_precompiled.c:10-12331 *)
Definition grasshopper_pil_enc128 : list (list N) :=
  [[0xe9fbd50c7ac08096191187931bc9aeb5;0x1908e08cb2171ace7b32fcabf8fef20a;0xbfcbd0a250b2dc77c0bdcaef4e88c789;0x6241101a5e6342d669c4123cd39313c0;0x4f38e5229865462fa29eb1d7adbf9b36;0x38b3396a116f4ae73c7097292fcbc0ef;0xfb1fb7c2067d564d083578fd960ffe68;0x4a88f89bc3a47973c794e789a3c509aa;0xc1323d8de707bb33b74172266b9fb4df;0x6a7c998e18379bf720d423721d3c7e63;0x0e5c9ffb956bf3490f1c559b7b42304b;0x97023823cd75e7d26eed3f5a3ededde3;0x0bec8242ceaacc156a1603c57538a2d7;0xa5123bf86a5bd38d988904cf0de1faf7;0xba7bcd1b0b73e32ba5b79cb140f25515;0x335fbb28dfc586f2566694ec5af36238;0x31c1080d2fd0216bd562091e88a8e860;0xed04704659ea0d67dc197eb47c7f7905;0xe4764121675566eb350be083db1c518a;0x586c9a55bf19afa8d6b018e72e035977;0x1e264e1019c3820b9d3c370724dfeace;0xc90fb419a1536212fe514368a530d97c;0xf40c90caebfd17a9a72b821f84818b0f;0xffe012882557dbbccd3d81daf1b929d8;0x85e65aedb1c831097fc9c034b3188d3e;0xd3d65f439bba6de8a6658d48e659e402;0x2b18e35715392e918d56c73ecbc1d51e;0x308eb0fe573b93c67560a667e164ad4c;0x17547f77277ce987742ea93083bcc241;0x12e462ce7cbdd6db1124ff6e8dc650dd;0xc3ac8ea817121caa3445efd4b9c43e87;0x1f69f6e3612830a63d3e987e4d13afe2;0x9ceeba6103df2bc704fb3c9f4be67f34;0x1ad9eb5a3ae90ffa5834ce2043693d7e;0x1df745c6913d973fbe3a058c9f4825ba;0xb6b9e1c56e0db7fb29af54d8e9ebef06;0x148574a1af82fcb357289bbb382b0d35;0x511eab3281a6c4243fa286d0896071f8;0xd66642fac07b52b4c36fdb16e823769e;0x563005ae2a725ce1d9ac4d7c5541693c;0xeed57b90d1141853ff1f4c3fc7e8b671;0xa0a22641319aecd1fd835291039b686b;0x39fc81996984f84a9c723850460785c3;0xac600a9f54e4b801719b9af8aa82d278;0x04ffa54a232a8df1c508f92767b6d7b0;0xcf6ea276726c487ab85d27bd10dd8494;0x71eaca275a3526a0d8e2422b37990631;0x6e833cc43b1d1606e5dcda557a8aa9d3;0x75156f6d791fab511deabb0c502fd181;0x9bc014fda80bb302e2f5f73397c767f0;0x5ddc87ece4d890f4b3ba4eb92079cbeb;0xe8b46dff022b323bb91328ea7205eb99;0xdbebd6d7ddeeb4c9ef75bc0628f689a1;0x82c8f4711a1ca9cc99c70b986f3995fa;0xbe84685128596eda60bf6596274482a5;0xb8e57e3efb6644b226b3014392a9df4d;0xe7a74af7efab73df160dd208608b9efe;0x25447cac8052ddd8824a92a5b083e555;0x8bbac51624a3c24070d595afc85abd75;0x3b6232bc99915fd31f76a5a2945c0f9b;0x5af229704f0c083155b48515fc58d32f;0xc7532be23438915bf14d16f3de72e937;0xef9ac363a9ffaafe5f1de346ae24f35d;0x321003dba72e345ff6643b95333f2714;0x6c1d8fe1cb08b19f66d847a7a8d1238b;0x8e0ad8af7f62fd1c15dfc3f1c6202fe9;0x94d333f5458bf2e64deb0dd185491297;0x93fd9d69ee5f6a23abe5c67d59680a53;0xa3732d97b964f9e5de85601ab80ca71f;0x67f10da305a27d8a0cce4462dde9815c;0x464ad445a6da2da34b8c2fe00adcb3b9;0x9da102927b34996aa4f993e6222a3a18;0xb9aac6cd838df61f86b1ae3afb659a61;0x73747902aa2081395be6dfd9e5c28c69;0xdf14739dfec439382a7d45214f405e11;0xe539f9d21fbed44695094ffab2d014a6;0x2695777a08acc8eca14ca02e0b142a21;0xde5bcb6e862f8b958a7fea58268c1b3d;0x80564754ea090e551ac3966abd621fa2;0xdd8ac0b80ed19ea1a979d8d39d1bd449;0x60dfa33fae76e54feac08fce01c89998;0xc5cd98c7c42d36c272498b010c29636f;0x505113c1f94d76899fa029a9e0ac34d4;0xbb3475e87398518605b533c8293e1039;0xb7f6593616e6055689adfba18027aa2a;0x0d8d942d1d95e67d2c1a6710c0d5ff3f;0x226ad2302b86451d644459096ca2fd91;0xf0f33580c8d79a5862237b38e3375cbf;0x8af57de55c4870edd0d73ad6a196f859;0x98111f2b20f5a636c1f3c5b82c50a884;0x3f9d97f6babbd222da7e5c85f3ead82b;0xd97565f22dfb13506c7121f4faad03f9;0x8119ffa792e2bcf8bac13913d4ae5a8e;0x3d0324d34aae75bb597ac17721b15273;0x9e700944f3ca8c5e87ffa16d99bdf56c;0x097231673ebf6b8ce9129e37a763288f;0xd83add015510a1fdcc738e8d936146d5;0x778bdc48890a0cc89eee26fe82745bd9;0x6b33217d60dc295a80d68c0b74f03b4f;0xe1c65c983c9459b75001b6ddd566c316;0xad2fb26c2c0f0aacd1993581c34e9754;0xe089e46b447feb1af00319a4bcaa863a;0x66beb5507d49cf27accceb1bb425c470;0xf8cebc148e8343792b334a762d98311c;0x76c464bbf1e1be653eec8987ebb81ef5;0x43fac9fcfd1b12ff2e8679be04a62125;0x723bc1f1d2cb3394fbe470a08c0ec945;0xf7dd9b1c6303029d842db0943f16447b;0x4e775dd1e08ef482029c1eaec473de1a;0xdcc5784b763a2c0c097b77aaf4d79165;0x48164bbe33b1deea44907a7b719e83f2;0xdaa46e24a50506644f77137f413acc8d;0x69ad925890c98ec303d211f9a6abb117;0xb0d8f7aabd329d936fa3300d5c06b2ee;0xd5b7492c48854780e069e99d53b4b9ea;0xf69223ef1be8b030242f1fed56da0157;0x7b49f096ec74581812f6ee972b6de1ca;0x41647ad90d0eb566ad82e44cd6fdab7d;0xcb91073c5146c58b7d55de9a776b5324;0x959c8b063d60404bede9a2a8ec8557bb;0xaa011cf087db92693797fe2d1f6f8f90;0xe6e8f2049740c172b60f7d710947dbd2;0x37a01e62fcef0b03936e6dcb3d45b588;0x21bbd9e6a378502947426b82d73532e5;0x42b5710f85f0a0528e84d6c76d6a6409;0xd729fa09b890e019636d746f81ef33b2;0xc2e3365b6ff9ae07944740add0087bab;0x745ad79e01f419fcbde8147539e394ad;0xe217574eb46a4c83730784566ef10c62;0x91632e4c1e4acdba28e15b8f8b33800b;0x23256ac3536df7b0c446f670056eb8bd;0xc07d857e9fec099e1743dd5f0253f1f3;0x642006758d5c68be2fc876e9667e4e28;0x0f132708ed8041e4af1efae2128e7567;0x630ea8e92688f07bc9c6bd45ba5f56ec;0xa89fafd577ce35f0b49363dfcd3405c8;0x55e10e78a28c49d5faaa7ff7eed6a648;0xbd556387a0a77bee43b9571d9cd34dd1;0x9a8fac0ed0e001af42f7584afe0b22dc;0x03d10bd688fe15342306328bbb97cf74;0xc8400cead9b8d0bf5e53ec11ccfc9c50;0xc4822034bcc6846fd24b247865e52643;0x6d523712b3e30332c6dae8dec11d66a7;0x92b2259a96b4d88e0be7690430a44f7f;0x4959f34d4b5a6c47e492d5021852c6de;0x9f3fb1b78b213ef327fd0e14f071b040;0x44d4676056cf8a3ac888b212d88739e1;0x2d79f538c60604f9cb5aa3eb7e2c88f6;0x2fe7461d3613a360485e3e19ac7702ae;0x36efa6918404b9ae336cc2b25489f0a4;0x15cacc52d7694e1ef72a34c251e74819;0x1847587fcafca863db3053d29132b726;0x70a572d422de940d78e0ed525e55431d;0xfeafaa7b5dbc69116d3f2ea398756cf4;0x2ea8feee4ef811cde85c9160c5bb4782;0x5c933f1f9c33225913b8e1c049b58ec7;0xa1ed9eb249715e7c5d81fde86a572d47;0xa6c3302ee2a5c6b9bb8f3644b6763583;0xea2adedaf23e95a23a17b518a05e61c1;0x1b9653a94202bd57f83661592aa57852;0x902c96bf66a17f1788e3f4f6e2ffc527;0xa45d830b12b06120388babb6642dbfdb;0x68e22aabe8223c6ea3d0be80cf67f43b;0x577fbd5d5299ee4c79aee2053c8d2c10;0xfd7ea1add5427c254e391c2823e2a380;0x00000000000000000000000000000000;0x353ead470cfaac9a106af039ef1e3fd0;0x4bc74068bb4fcbde679648f0ca094c86;0x47056cb6de319f0eeb8e80996310f695;0xa23c9564c18f4b487e87cf63d1c0e233;0x83874c8262f71b6139c5a4e106f5d0d6;0x7c675e0a47a0c0ddf4f8253bf74cf90e;0xd299e7b0e351df45066722318f95a12e;0x13abda3d04566476b1265017e40a15f1;0x7ef9ed2fb7b5674477fcb8c925177356;0x3ed22f05c250608f7a7cf3fc9a269d07;0x7a064865949feab5b2f441ee42a1a4e6;0x84a9e21ec92383a4dfcb6f4ddad4c812;0x161bc7845f975b2ad42c0649ea70876d;0xd148ec666bafca71256110ba34026e5a;0xb1974f59c5d92f3ecfa19f7435caf7c2;0x0cc22cde657e54d08c18c869a919ba13;0x29865072e52c89080e525acc199a5f46;0x0661166fd33f2a68460c64d5b5ed5de8;0x2c364dcbbeedb6546b580c9217e0cdda;0x2a575ba46dd29c3c2d546847a20d9032;0xcdf011538279efe33b59ba4fc2860ecc;0x072eae9cabd498c5e60ecbacdc2118c4;0x107ad1eb8ca871429220629c5f9dda85;0x083d89944654d9214910314eceaf6da3;0xf98104e7f668f1d48b31e50f44547430;0x11356918f443c3ef3222cde536519fa9;0x28c9e8819dc73ba5ae50f5b570561a6a;0xeb6566298ad5270f9a151a61c99224ed;0x8778e9c841dd9690fccd5dc661430766;0xf1bc8d73b03c28f5c221d4418afb1993;0xc61c93114cd323f6514fb98ab7beac1b;0xb568ea13e6f3a2cf0aa96653527c2072;0x6fcc843743f6a4ab45de752c1346ecff;0xccbfa9a0fa925d4e9b5b1536ab4a4be0;0x347115b474111e37b0685f4086d27afc;0x1cb8fd35e9d625921e38aaf5f6846096;0x4da656076870e1b6219a2c257fe4116e;0xf3223e5640298f6c412549b358a093cb;0x964d80d0b59e557fceef9023571298cf;0x05b01db95bc13f5c650a565e0e7a929c;0x61901bccd69d57e24ac220b76804dcb4;0x592322a6c7f21d0576b2b79e47cf1c5b;0x8637513b3936243d5ccff2bf088f424a;0x886bcec0ac5dd77453d3a72473cd7201;0xb309fc7c35cc88a74ca50286e7917d9a;0x89247633d4b665d9f3d1085d1a01372d;0xfc31195eada9ce88ee3bb3514a2ee6ac;0xab4ea403ff3020c49795515476a3cabc;0x5380181771b363bdbca61b225b3bfba0;0xb42752e09e181062aaabc92a3bb0655e;0xe358efbdcc81fe2ed3052b2f073d494e;0xce211a850a87fad7185f88c47911c1b8;0x52cfa0e40958d1101ca4b45b32f7be8c;0x8c946b8a8f775a8596db5e03147ba5b1;0x3a2d8a4fe17aed7ebf740adbfd904ab7;0xcadebfcf29ad7726dd5771e31ea71608;0x54aeb68bda67fb785aa8d08e871ae364;0xa78c88dd9a4e74141b8d993ddfba70af;0x995ea7d8581e149b61f16ac1459ceda8;0x0aa33ab1b6417eb8ca14acbc1cf4e7fb;0x402bc22a75e507cb0d804b35bf31ee51;0x029eb325f015a79983049df2d25b8a58;0x5bbd918337e7ba9cf5b62a6c95949603;0xbc1adb74d84cc943e3bbf864f51f08fd;0x7898fb40648a4d2c31f0dc1c90fa2ebe;0x79d743b31c61ff8191f27365f9366b92;0xf54328399316a50407292d66ed4dce23;0xa9d017260f25875d1491cca6a4f840e4;0xec4bc8b52101bfca7c1bd1cd15b33c29;0x7d28e6f93f4b727054fa8a429e80bc22;0x459bdf932e243897688a1d6bb14b7ccd;0x3c4c9c203245c716f9786e0e487d175f;0x656fbe86f5b7da138fcad9900fb20b04;0x014fb8f378ebb2ada002af7969cc452c;0x240bc45ff8b96f7522483ddcd94fa079;0x5f4234c914cd376d30bed34bf22241b3;0x7fb655dccf5ed5e9d7fe17b04cdb367a;0x20f46115db93e284e740c4fbbef977c9;0xaefeb9baa4f11f98f29f070a78d95820;0x5e0d8c3a6c2685c090bc7c329bee049f;0xafb10149dc1aad35529da87311151d0c;0xd0075495134478dc8563bfc35dce2b76;0xb246448f4d273a0aeca7adff8e5d38b6;0x8f45605c07894fb1b5dd6c88afec6ac5;0x27dacf8970477a41014e0f5762d86f0d;0x8ddbd379f79ce82836d9f17a7db7e09d;0x4ce9eef4109b531b8198835c16285442;0xd4f8f1df306ef52d406b46e43a78fcc6;0xfa500f317e96e4e0a837d784ffc3bb44;0xf26d86a538c23dc1e127e6ca316cd6e7];
   [0x2f3658eaa20c25cf7cd99e4992d35036;0x4833d63a7e8c82b8f46c87e40ba69f33;0x5c9ce97665a2afd901720a54a881949c;0x0c651585091a1b9e530a7bd1611db865;0x3b9967a6b92208ae89c713f931f45b99;0x625ef1c3aa6a3dfe2453ab81c10cbd5e;0xe7ef6c2a3cc2446e67757059b2d651ef;0x4285281c929b75696f6320bcbb547b85;0x61d66573398d4b3840b0c524489a93d6;0x1a3a73a8f08ed37b5f1703a78dde873a;0xf9f6ad40cbfb9ede09645ab1a103bef6;0x127cd4effe23c12e3d1b513972c8577c;0x80eae2fae042e319efc069f42ba39eea;0x821abb9b02f8069d16c39c326447aa1a;0x2580a6cc4e1bd21ee7d639112221b480;0xe2b413394a28dee7cb93c275eaaf23b4;0x06d3eba3e50dec4fc805dc89d1ef5cd3;0x24f86b1d3f46415c7a36a272e453aef8;0x4075717d702190ed9660d57af4b04f75;0x8a5c1cdc0c5514c874cfceac9b517a5c;0xd548611afa10cdd7115eaa5dba46c048;0x7789035ec01983dd4cadbd52a459ac89;0x6ccbbd2741cac3e48e5a2596eff531cb;0xec215fdda18820fd619a4c62c456af21;0xdaa5e02f60eda08f26b7bf2952cd56a5;0xa90f51b3a7432a995b1c2b34689f920f;0xd855b94e8257450bdfb44aef1d296255;0x740197ee53fef51b284ed3f72dcf8201;0xb1c57b7ab5771c66fd08dd55aaa521c5;0xc8d934c09ece61a11bacee10200501d9;0x85b19de996a879904326dbd873daecb1;0xa79a1d574ce3d483f115a52346661e9a;0x929636151e612237d2db38cd596bc996;0xde8652ed675aa94417b19666ccc63e86;0x43fde5cde3c6e62bf283bbdf7d2661fd;0x3811f3162ac57e68ed247d5cb8627511;0x2770ffadaca1379a1ed5ccd76dc58070;0xeed106bc4332c5799899b9a48bb29bd1;0xd0131e098cfa575ebdb81871e23fb213;0x73aab19cc7ae8a167dab941d3a52c4aa;0xb24defca26906aa099ebb3f023330f4d;0xfb06f42129417b5af067af77eee78a06;0x108c8d8e1c9924aac418a4ff3d2c638c;0xe697a1fb4d9fd72cfa95eb3a74a44b97;0x0bce33f79d4a649306ef3c3b7680fece;0x9820c833f276d5e649d49f95e9992d20;0xb66e5d082127636ba8ed9abfbd38676e;0x11f4405f6dc4b7e859f83f9cfb5e79f4;0xbda06effbc6d07f8ae02a684cbb899a0;0x0fed81359afd6d5837e91574e88b96ed;0xf340536627ec690f926bfde911f15a40;0x5de424a714ff3c9b9c9291376ef38ee4;0xbf50379e5ed7e27c57015342845cad50;0x47de570fe471efe0c3859290e32d09de;0x2e4e953bd351b68de139052a54a14a4e;0xc1e75e56e13ee0b6e44027ed1961cbe7;0xd6c0f5aa69f7bb1175bdc4f833d0eec0;0x21a3140e49acdbd5d6d0105ebc2adca3;0x23534d6fab163e512fd3e598f3cee853;0xf4eb7514b3bc1602c78eba03066c1ceb;0x6e3be446a37026607759d050a011053b;0x8e7fae1e0be21d0345c9e7e3055a127f;0xc09f9387906373f479a0bc8edf13d19f;0x90666f74fcdbc7b32bd8cd0b168ffd66;0xf593b8c5c2e185405a6e2160c01e0693;0x5a4f02d580af4396c977d6dd796ec84f;0x84c95038e7f5ead2dec640bbb5a8f6c9;0x19b2e7186369a5bd3bf46d020448a9b2;0x6db370f6309750a613babef529872bb3;0x75795a3f22a36659b5ae4894ebbd9879;0x5f147dc6f645d91f659164f12117ba14;0xe0444a58a8923b63329037b3a54b1744;0xb335221b57cdf9e2040b2893e5411535;0x5209a5928e0251c3ab7b844386781809;0xb49e0469c39d86ef51ee6f79f2dc539e;0x32a70d30c6d289b9762bda04089091a7;0xb71690d9507af029350d01dc7b4a7d16;0xc64c7824756e9fbbb1a560070efc8d4c;0xa3b9af954b54dd48c0138c6cd86d76b9;0x50f9fcf36cb8b44752787185c99c2cf9;0xe802ed1fa63f2936509c652d5a5dc702;0x6a185684a4c72fab465ff91f3e1a6d18;0x9c037af1f5c1dc2d78d2b6da77924503;0x5752da81f8e8cb4a079d366fde016a52;0x4ac38f5b9c36673c0d6f72224442abc3;0x6f432997d22db522eab94b3366631f43;0xbcd8a32ecd3094ba33e23de70dca83d8;0x67058ed0dc80a77788b519ad9975cf05;0x518131221de52705cf98eae60fee3681;0x995805e2832b46a4d43404f62feb3758;0xff2546e32ef67291c161863870ece225;0x5b37cf04f1f2d0d454974dbebf1cd237;0xd16bd3d8fda7c41c20588312244da86b;0x1b42be7981d34039c2f798c44bac9d42;0x76f1ce8fb144109fd14d2631622bb6f1;0x648d1a604f67d1b1ec56770810e3e18d;0x29e5b3494701c980b4dc42c0433c0ce5;0x59c7966513483550ad94b878f0f8e6c7;0x68e80fe5467dca2fbf5c0cd971fe59e8;0x39693ec75b98ed2a70c4e63f7e106f69;0x9445ddb6fb6cce781adee44488849545;0x4bbb428aed6bf47e908fe9418230b1bb;0x07ab267294507f0d55e547ea179d46ab;0x715ae8fd25146f9284a861db75b6f05a;0x2b15ea28a5bb2c044ddfb7060cd83815;0x2608327cddfca4d8833557b4abb79a08;0x20dbd9df38f148974b308b3d7a58c6db;0xfa7e39f0581ce8186d8734142895907e;0x494b1beb0fd111fa698c1c87cdd4854b;0x222b80beda4bad13b2337efb35bcf22b;0xa6e2d0863dbe47c16cf53e40801404e2;0xcd824bd3e824fb28b74a5c3c787c7382;0x8c8ff77fe958f887bcca12254abe268f;0xd7b8387b18aa2853e85d5f9bf5a2f4b8;0x46a69ade952c7ca25e6509f3255f13a6;0x88ac45bdeeeff14c8dcc3b6ad4b54eac;0x4456c3bf77969926a766fc356abb2756;0xc26fcae672d9967080a3494890f7e56f;0x93eefbc46f3cb1754f3ba3ae9f19d3ee;0xf61b2c755106f3863e8d4fc54988281b;0x093e6a967ff08117ffecc9fd3964ca3e;0xa41289e7df04a24595f6cb86cff03012;0xe97a20ced762ba74cd7cfe4e9c2fdd7a;0x2a6d27f9d4e6bf46d03f2c65caaa226d;0x54da4e316b0fbd8c637e58ca579744da;0xa2c162443a094e0a5df3170f1e1f6cc1;0xf763e1a4205b60c4a36dd4a68ffa3263;0xcf7212b20a9e1eac4e49a9fa37984772;0xafdcba10424ec6d69319f7bdb970cedc;0xfdd51f82cc4c9715386273fe3f08d6d5;0xce0adf637bc38deed3a93299f1ea5d0a;0x1304193e8f7e526ca0fbca5ab4ba4d04;0xe3ccdee83b754da5567359162cdd39cc;0x8b24d10d7d08878ae92f55cf5d236024;0x7eb769c8bfe902cab34174af9d3d66b7;0xed59920cd0d5b3bffc7ad7010224b559;0xe51f354bde78a1ea9e76859ffd32651f;0xb8fb11ecca879d7102e414a893c1ebfb;0x7d3ffd782c0e740cd7a21a0a14ab483f;0x96b584d719d62bfce3dd1182c760a1b5;0x055b7f1376ea9a89ace6b22c5879725b;0x18ca2ac9123436ffa614f661c23ab3ca;0x8741c48874129c14ba252e1e3c3ed841;0x6b609b55d59abce9dbbf627cf8687760;0xd430accb8b4d5e958cbe313e7c34da30;0x0423b2c207b709cb3106294f9e0b6823;0xbb73855c5960ebb766077a0d1a57c573;0x37fc7223b0381330dacd682850e9e3fc;0xd39b8ab91f1d2198d95b76d46ba99c9b;0x9ba85c836191a3202d37f130600f03a8;0x55a283e01a522ecefe9ec3a991e55ea2;0x3ae1aa77c87f9bec1427889af78641e1;0xc4bc214597d47a3f48a695c14118b9bc;0x9ef32390177b39a981d1431c387671f3;0xa149f6f4a9ee38cc391079aa97894249;0x81922f2b911f705b7220f297edd18492;0x89d4886c9fb2620e102ca00912c754d4;0x14af3f4c1b2e2d61f51e8db0a3270baf;0xb983dc3dbbda0e339f048fcb55b3f183;0xac542ea0d1a9b010f7fa991830e6e054;0x8f0763cf7abf8e41d8297c80c3280807;0xf0c8c7d6b40b1fc9f688934c986774c8;0xfe5d8b325fabe1d35c811d5bb69ef85d;0x0178cdd1715d93429de09b63c6721a78;0x0846a7470ead1255620c529eff16d046;0x00000000000000000000000000000000;0x0d1dd854784788dcceeae0b2a76fa21d;0x3057545124686c3d8f282fc24774a557;0x2dc6018b40b6c04b85da6b8fdd3764c6;0x1f610cbb866449f2f3f1b18bd5a7f561;0x350c2b425282f6b423ce9dee1f0dd70c;0xd92d749ff30ad6494254d18cdb5b782d;0xdbdd2dfe11b033cdbb57244a94bf4cdd;0xba0b488d283d78f5fbe7e16edc25df0b;0x3d4a8c055c2fe4e141c2cf70e01b074a;0x8df73aae98056bc5212a89468ccc3cf7;0x3684bff2c1658072472df34b969bf984;0xa8779c62d61eb9dbc6fcb057aeed8877;0xc3170737038405321d43d22b5685ff17;0x4d68a92908661831588a35c853dfed68;0xa56a4436ae593107081650e509822a6a;0x1d9155da64deac760af2444d9a43c191;0x3c3241d42d7277a3dc22541326691d32;0xefa9cb6d326f563b057922c74dc081a9;0x452e0e6e06cb0a643a866756acc93d2e;0xaa87c50334a45c5f3fff4591e109bc87;0x7c4730a95d53e74e4a428169d2d95247;0x9d7bb720849c4f6fe5322db9b1e05f7b;0x2cbecc5a31eb5309183af0ec1b457ebe;0x165f662df994c8e50c1d7876ecc33f5f;0x038894b093e776c664e36ea589962e88;0x5e6cb01787184a5df871ff92e765a06c;0x4ee03d999b816ef73c695b6dda49c3e0;0xcb51a0700d2917677f4f80b5a9932f51;0x3ec218b5cfc892272521a1d5698d29c2;0x15d7f29d6a73be2368fe16d3655511d7;0xfcadd253bd110457a582e89df97accad;0xaea477c1331355940ef96cde7f02d4a4;0x63263c12db37aebcb9b330e2077ea726;0x0e954ce4eba0fe1aaa098e172ef98c95;0x7fcfa419ceb491882ea1efcc5b4f7ccf;0x312f99805535ff7f12c8b4a18106bf2f;0xdffe9f3c16073a068a510d050ab424fe;0xf1b00a07c5568c8b6b68082f5e156eb0;0x60aea8a248d0d87add505e478ee889ae;0x791c4fba2bb97dc7e6a433458aa0201c;0x9ad0915210cc3062b0d76a53a67d19d0;0xf88e6091baa60d9c9484c1d26771a48e;0x4c1064f8793b8b73c56aaeab95adf710;0xb5e6c9b8b2c015adcc0ef41a34ae49e6;0x410dbcac017c03af0b804e1932c2550d;0xc734b5f504330cf92c45fb64c88e9734;0x7a94db0ab85e0b0182475de003360e94;0x7bec16dbc90398431fa7c683c54414ec;0x0ab6fe26ec17f7d19b0fa758b0f2e4b6;0xdc760b8c85e04cc0eeb263a083220a76;0xdd0ec65df4bddf827352f8c34550100e;0xeaf2b47e4485ccb2a99f90eb15b9f3f2;0x7864826b5ae4ee857b44a8264cd23a64;0xbe28fa4f2f8a713ecae1c821422eb728;0x86390959054f0f5627c5b57dfa4cc239;0xe13c8789d9cfa821af70acd063390d3c;0x97cd4906688bb8be7e3d8ae10112bbcd;0x667d4301addd3435155582ce5f07d57d;0xeb8a79af35d85ff0347f0b88d3cbe98a;0xf2389eb756b1fa4d0f8b668ad7834038;0xb0bdb6abc42a8f2460e846366cd73bbd;0xe467f89aaf2532a803961efc3b407f67;0x1ce9980b15833f349712df2e5c31dbe9;0xca296da17c748425e2af1bd66fe13529;0xd2e347686e40b2da44bbedb7addb86e3;0xa0313b25d8b3ab8ea4f0e2c951fb5831;0x1e19c16af739dab06e112ae813d5ef19;0x9f8bee416626aaeb1c31d87ffe046b8b;0x562a175089b558089a7dad0c1873702a;0xabff08d245f9cf1da21fdef2277ba6ff;0xc9a1f911ef93f2e3864c7573e6771ba1;0x6990c2343720596d22bc97bab78c4390;0x911ea2a58d8654f1b6385668d0fde71e;0x72d27c4db6f31954e04b0f7efc20ded2;0x53716843ff5fc281369b1f20400a0271;0x1727abfc88c95ba791fde3152ab12527;0x4f98f048eadcfdb5a189c00e1c3bd998;0x58bf5bb46215a6123074231b368afcbf;0x02f05961e2bae584f903f5c64fe434f0;0x65f5d7b13e3a42f371b6ec6bd691fbf5;0x7022252c5449fcd01948fab8b3c4ea22;0x3fbad564be950165b8c13ab6afff33ba;0x33dfc0e1b78f1afbebcb4167cee28bdf;0x289d7e98365c5ac2293cd9a3854e169d;0xc5c4ec94e689e97dd5460ea2876aa3c4;0xccfa86029979686a2aaac75fbe0e69fa;0xad2ce371a0f423526a1a027bf694fa2c;0x3474e69323df65f6be2e068dd97fcd74;0x953d10678a315d3a873e7f274ef68f3d;0x8362764a73a595df8b230751a235b062];
   [0x37f9691b711861cd691954d6afcb3752;0x938b03f8d8db4a3b037b5ac3527d931c;0xdb45634ee4871e5763c04b198006db1a;0x38fb20d314348d2420690ff74e293802;0x7f3709ad4d4435a109a2450c7db07f54;0xb6a0722fa6d43eed723c9bc228d8b6ae;0xa081ad96ea4790f0ad08ae66b191a0cf;0xb7ec33a3c6f5600d33c7b3ae3ba1b71f;0xb8ee7a6ba3d98ce47ab7e88fda43b84f;0xc541f11d2edf0546f120fd5b8101c5ba;0xcc28fd7bc835eeaafd0f56d10a36ccca;0x5452703e3646f37e706ef740f58e5407;0x04f3c7754384bb06c76aa0734c270481;0xb187760d45336708769843055174b13f;0x139e59406f364bfb59a5bdbbc6171351;0xb253b55ae55085ebb5563bb164ffb22f;0x1c9c10880a1aa71210d5e69a27f51c01;0xa8a4e07c6c8c25fce0dc2d8029dfa80e;0x029882dbc042bc03823550d826f202a1;0x2094f72e5daa9130f7d6491e25fb2082;0xf59f9c24bc203d6e9c9d714a5766f579;0x4554aba599320486abfe1a23156b45f7;0x3b2fe384b4576fc7e3a777437ba23b12;0x3fdc24f1f7d3d4c124cdd73037853f93;0xc32ab4b3ad190243b47f0df0ebd4c39a;0x2f96bee638867dd9bea6123fc4192fd2;0x765e05cbabaede4d058dee86f6877624;0x4b1aa3e19c3fb68fa375696ee7f04b16;0x5fa3fe8310eea491fe740c12584b5fd6;0x9778c48d9b5ff13dc411fab01e5a979d;0x1621dfb94c93ae1ddf3435a499491661;0xa2192f4d2a052cf32f3dfebe9763a26e;0x50a1b74b75c24878b7045733b9a95086;0x6ac21543a1b4795f1558081cd1726a25;0x0cd68a9fc54f0e0a8abe2395d4690c40;0x717901e9484987a8012936418f2b71b5;0xa6eae838698197f5e8575ecddb44a6ef;0x8aa89589f16408cf953f34462ad68a2d;0xe74d84e8b337287584c3e49d8208e799;0xecbc0a55959f7f9a0ad91fcf2fcdec48;0x51edf6c715e31698f6ff7f5faad05137;0x795c4c03ce8232a44cfdb5a717657974;0xe126c14630f12f70c19c1436e8dde1b9;0x1bbb14aae9fdfef714713e5d5e591b90;0x9f5d89671d94443189c5795686149f5c;0x74c687106bec624e87b8be5ed0757485;0xf8055737194e6d8457d87ab39076f888;0x5a1c787a334b417778e5840d07155ae6;0x6758de5004da29b5de1d03e5166267d4;0x36b5289711393f2d28e27cbabcb236e3;0xe84fcd20d61bc49ccdb3bfbc63eae8c9;0x607fda72e73d7050dab9db226fce6045;0xd22c6f28026df5bb6fefe0930b31d26a;0xa53e2b6fc9e275162b992679eecfa5ff;0x8cc3d02772a20fcad060c4ed40038c0d;0xbd51fc92807c6902fc266090851dbd7f;0xfbd19460b92d8f6794160207a5fdfb98;0xba76f8b0639b30e7f882b857fcb1baee;0x0f0249c8652cece949705b21e1e20f50;0x4fe96494dfbb0d89641fc91dabd74f97;0x8e5b52fcb2e0b3c95255943566f18eac;0x897c56de5107ea2c56f14cf21f5d893d;0x066b45ae83c60705455ff0ab6ad50620;0xe5d506337375947606f6b445a4fae538;0xf4d3dda8dc01638edd665926441ff4c8;0xc7d973c6ee9db9457315ad83a7f3c71b;0xad1b66854f29c01a664da59f7681ad3e;0xcb0ff9592bd2b74ff9ab8e16739acb5b;0x80155ab8b7ed01c05adee778946a804d;0xf0201add9f85d8881a0cf9550838f049;0xd50b6b0ae18aac5e6b4b3854729dd5fb;0x07270422e3e759e504a4d8c779ac0791;0xead74ffb1659789f4f86ef644518ea68;0x56caf2e5f6044f7df25ba798d37c56a6;0x4d71e64f1ff9b18ae62a99c58d254d36;0x551e31b25667ad9e3195df2ce6f755b6;0x433fee0b1af40383eea1ea887fbe43d7;0x1af7552689dca017558a16314d201a21;0x0bf18ebd26a857ef8e1afb52adc50bd1;0xe3be439df0b3937343a944eece2fe318;0x96348501fb7eafdd85ead2dc0d23962c;0x27b3f30cbe4dc8d5f37291d95c572713;0xdd2e26e067411952269fbbb2ead3dd3a;0x4418ea29f9135a66ea05324f06124446;0x26ffb280de6c9635b289b9b54f2e26a2;0x3561ebc0b15addceeb2c040e893935f3;0xdc62676c076047b2676493def9aadc8b;0xa4726ae3a9c32bf66a620e15fdb6a44e;0x5884faa1f309fd74fad0d4d521e75847;0xcffc3e2c68560c493ec12e653fbdcfda;0xd0b4edf3c22f49b8eddab04b2dc3d0cb;0x7ce3cafaed27d742ca6c3db8483b7c44;0x5c773dd4b08d46723dba74a66dc05cc6;0x7e7b48212d656b4148596d606ec97ee5;0xfe6e12999a886a8112878a18faa3fea8;0xaa3c62a7acce99ff62e97d580f2daaaf;0x2b6579937b02c6df79ccb24c883e2b53;0xc9977b82eb900b4c7b9edece5568c9fa;0x92c74274b8fa14db428072af410492ad;0xca43b8d54bf3e9afb850a67a60e3caea;0x4c3da7c37fd8ef6aa7d1b1a99e5c4c87;0x9dc50bbcddd6f8320bf0298ea0e69dfd;0xa7a6a9b409a0c915a9ac76a1c83da75e;0x59c8bb2d9328a394bb2bfcb9329e59f6;0x9e11c8eb7db51ad1c83e513a956d9eed;0x1dd051046a3bf9f2512ecef6348c1db0;0x014c418c60215ee041fb286c137901b1;0xc266f53fcd385ca3f584259cf8adc22b;0x28b1bac4db61243cba02caf8bdb52843;0xb438f0f4669682eef009cb1a0e2ab40f;0x1923967129bf42f496446e8578ab1931;0x85aadc419448e426dc4f6f67cb34857d;0x3c08e7a657b03622e703af84020e3c83;0x40eb2d5cba97e1602d6f923c4a3540c7;0x1e049253ca581b1192e0b64201071ea0;0x95e046565b1d4d3e4624aa6838a8953c;0xab70232bccefc71f231255341c54ab1e;0xb31ff4d68571db0bf4ad13dd7786b39e;0xeb9b0e777678267f0e7dc7085661ebd9;0xfa9dd5ecd90cd187d5ed2a6bb684fa29;0x2a29381f1b23983f38379a209b472ae2;0xac5727092f089efa27b68df365f8ac8f;0x2d0e3c3df8c4c1da3c9342e7e2eb2d73;0x252b71d77e0f74d67147c1017aa525b2;0x4a56e26dfc1ee86fe28e4102f4894aa7;0xb0cb3781251239e837636b69420db08e;0x41a76cd0dab6bf806c94ba50594c4176;0x30de6d3992ff38286dbd8c11d66730c3;0x330aae6e329cdacbae73f4a5e3ec33d3;0x65c05c8bc49895b65c28533d30906575;0x8be4d4059145562fd4c41c2a39af8b9c;0xef68c90235fc9d79c917677b1a46ef58;0x09690c66e6eaebec0c2fab8a8b370970;0x9bae4e125e10ff374eafd925ca339bdd;0x6f7d93ba82119cb993c980038e2c6f15;0x84e69dcdf469bac69db4470bd84d84cc;0x15f51ceeecf04cfe1cfa4d10acc21571;0x758ac69c0bcd3caec6439632c30c7534;0x61339bfe871c2eb09b42f34e7cb761f4;0xf94916bb796f3364162352df830ff939;0x12d218cc0f17151b185e95d7d56e12e0;0x703540652868d94840d21e2d9c527004;0xa3556ec14a2472136ec6d6d2841aa3df;0x9c894a30bdf7a6d24a0b01e2b39f9c4c;0x4ea52518bf9a536925e4e171b8ae4e26;0xa9e8a1f00cad7b1ca12705ec3aa6a9bf;0x7bc4ced80ec08ea7cec8e57f31977bd5;0x47cc297e5970b88529cb4afb33994756;0xe9038cacb63a9a7c8c4897d07093e978;0x7a888f546ee1d0478f33cd1322ee7a64;0xf16c5b51ffa486685bf7d1391b41f1f8;0xc40db0914efe5ba6b0dbd5379278c40b;0xaf83e45e8f6b7c19e478f5475073af9f;0x685a979861f6c55c976d58c4f7806884;0xbe853fc5201f8be13fe81824b096be6f;0xbfc97e49403ed5017e133048a3efbfde;0x2edaff6a58a72339ff5d3a53d7602e63;0x48ce60b63c5c546c60bb11dad27b4806;0xceb07fa0087752a97f3a06092cc4ce6b;0x3d44a62a379168c2a6f887e811773d32;0x3246efe252bd842bef88dcc9f0953262;0xe601c564d3167695c538ccf19171e628;0x6b8e54cfc19527bf54a32070c20b6b94;0xbb3ab93c03ba6e07b979903befc8bb5f;0x911381231899f638814e0a1b748f91bd;0x00000000000000000000000000000000;0x83c199ef178ee32399109fcca1e1835d;0xe06a80ca50d0719080673c5afba4e008;0x828dd86377afbdc3d8ebb7a0b29882ec;0xd793e9d121c8105de97e688c546fd75a;0xf2b898065fc7648b9839a98d2ecaf2e8;0xcd64bcf7a814b04abcf47ebd194fcd7b;0x78100d8faea36c440d069dcb041c78c5;0xc0fe77e40d7ae0a077b17544de5fc08a;0x63ab1925475e92b31977a3965a456355;0x87325e9a540a58255e7a3fbfedc687dc;0xfcf690425acad68290b2dac0dc51fc09;0x94ac07da3b3c13de07df82042bd1948d;0x08254dea86cbb50c4dd483e6984e08c1;0x81591b34d7cc5f201b25cf14871381fc;0x176d9e352cb2f0fd9ecf1dc88a3017d0;0x62e758a9277fcc53588c8bfa493c62e4;0xd891a01944e4fcb4a00e33adb58dd80a;0x31922cb5f2de66c82c46a47dc51e3172;0x104a9a17cf55a9189a6bc50ff39c1041;0x21d8b6a23d8bcfd0b62d617236822133;0xda0922c284a640b7223b6375937fdaab;0x66149fdc64fb77559fe62b89051b6665;0x39b7615f7415d3c46192279b5d5039b3;0xfdbad1ce3aeb8862d149f2accf28fdb8;0x0e4e0844050db209088b734df29b0ee1;0x6e31d236e230c259d232a86f9d556ea4;0x8f171370d2c1ed2913aebc5975888f1d;0x9936ccc99e524334cc9a89fdecc1997c;0x6de51161425320ba11fcd0dba8de6db4;0xf3f4d98a3fe63a6bd9c281e13db3f359;0xdefae5b7c722fbb1e551c306df58de2a;0x883017523126b4cc170a649e0c24888c;0x0d9acb13a56e50eacb450bf9c7100df1;0x8d8f91ab1283512a919bec81537a8dbc;0xd4472a8681abf2be2ab0103861e4d44a;0x5b5039f6536a1f97391eac61146c5b57;0xd1f8ac7fa20e1758ac2198273ebad17a;0x5d3b7c58d0ac18927c415cca7eb95d77;0x03d4c357a063e2e3c3ce78b4358b0310;0xc8db3a0e8bb155ac3a65f6a24611c84b;0xc1b236686d5bbe40364a5d28cd26c13b;0x77124447cb8f80ad4476c6eae5fe7795;0x3a63a208d4763127a25c5f2f68db3aa3;0xf64b5f731c43df8d5f5309fe62edf669;0xb9a23be7c3f8d2043b4cc0e3c93ab9fe;0xa1cdec1a8a66ce10ecf3860aa2e8a17e;0xc695324a8ebce7a532ee85efb48ac6aa;0x7daf8b768d0689a28b9715d45b427df5;0x2467305b1e2e2a3630bce96d69dc2403;0xdfb6a43ba703a551a4aaeb6acc21df9b;0x648c1d07a4b9cb561dd37b5123e964c4;0x23403479fdc973d3341831aa10702392;0x73e18332880b3bab831c6699a9d97314;0x6916d61401d79bbcd69670a8e4f96935;0x186fd7fd499e1c14d7bf46e96bd21880;0xbc1dbd1ee05d37e2bddd48fc9664bcce;0x4273af877ad55d63af5ac2e46cc74266;0x1f48d3dfaa7945f1d31b9e2e127e1f11;0x987a8d45fe731dd48d61a191ffb898cd;0x5375741cd5a1aa9b74ca2f878c225396;0xe49947bf1354ca96470d9c29b783e489;0xaecfa5d2ef4a22f9a583dd2b430aae2e;0xd9dde19524c5a254e1f51bc1a6f4d9bb;0x220c75f59de82d3375e319c603092223;0x52393590b580f47b353107eb9f5b5227;0x05bf86f923a5e5e68691881f5f5e0530;0x6ca950ed22727e5a5007f8b7bba76c05;0xd3602ea4624cab5b2e14c8ff1848d3db;0xff225315faa93461537ca274e9daff19;0x9ae20f9e3e31a1d70f54f149d94a9a6c;0x2c427db198e59f3a7d686a8bf1922cc2;0x29fdfb48bb407adcfbf9e294aecc29f2;0x5eefbf0f70cffa71bf8f247e4b325e67;0x5786b3699625119db3a08ff4c0055717;0xedf04bd9f5be217a4b2237a33cb4edf9;0x468068f23951e6656830629720e046e7;0x342daa4cd17b832eaad72c629a403442;0x72adc2bee82a654bc2e74ef5baa072a5;0xb574b17806b7dc0eb1f2e3761d53b5be;0x1106db9baf74f7f8db90ed63e0e511f0;0xe2f202119092cd9302526c82dd56e2a9;0xd6dfa85d41e94ebda88540e04716d6eb;0xee24888e55ddc39988ec4f17093feee9;0x905fc0af78b8a8d8c0b5227767f6900c;0x14b95d628cd1121e5d01657cbfbb14c0;0x3e90657d97f28a216536ff5c24fc3e22;0x867e1f16342b06c51f8117d3febf866d;0x4982213a5c7d0a8c214039b6c10249b7;0xf7071eff7c62816d1ea821927194f7d8;0x0abdcf314689090fcfe1d33ebebc0a60];
   [0xa878419a639aaacc6d6bb62dbf638e1b;0xb431ad42c942379bc68029cbc0c915f8;0x96de29d590d51810bced40d27a90f04e;0x1ee47ccc37cca479979a27b6d737e2d3;0x8a97c50d3a0d85471706df34053a6bad;0xf502cd8d2d8de60554611471b02d332f;0x9f98648f0e8f01bf5233b979cb0e0a96;0xa5a7efe804e8c13ffb57fc269d0486a3;0x133bd2be50becf8a01a66dbdf550ea6b;0x39255379387904b98bcca127aa38281d;0xace1a2b29ab2d8901589058d2c9a7c7b;0x2d9dbaf1a3f17d56d0209b4230a3943e;0x83d18857a4579ce8f9d8269fb4a49175;0x86ff2375f27513a39fe3c91773f2be0d;0xb9ee0330ae305c6850bc63c0e2ae1d40;0x76d345da89da7aedadb932ee0489a25a;0x0f723e66fa6652ddaa4df25b8afa7188;0x5af9b7218521faac6340f5846085eb7c;0xa08944ca52ca4e749d6c13ae5a52a9db;0x9247cafd69fd6a4cc40ff372e969022e;0xe2a0fc1b841b5bd32d25ca6cd6842b24;0x34fafd0b5f0b6f4a1df0eb2c885f20a5;0xeec81a634c63cd37a5c0dc4fa04cfe84;0x6d199234e83451df5c18fad014e86ff1;0x1a7d9fe4cee4d625ef78941644ce10b3;0x24dbf7ab3dab64f93efe62e9813d6ee6;0x1f5334c698c6596e89437b9e83983fcb;0xd2c3e238223846c5483792e0cd22f9e1;0x18d00ff053f0ef0bd3092c46ec536983;0x37e025156d15ab733f580f54746d848d;0x6a9aa9022302e7ba0652ad087b2339b9;0x3f1120455c454fcbcf5faad7915ca34d;0xae4c32a607a6e1be29f8bddd8407054b;0x10210aa062a00bb3230e89c509624e43;0x46b05bf92ff967fbc8ab6a621f2f709f;0x6caeda3e473eacc842c1a6f84047b2e9;0xbcc0a812f812d32336878c4825f83238;0x68373916be16de943a231558d3be4089;0x0bebdd4e034e2081d2af41fb190383e8;0x3ea6684ff34fb2dcd186f6ffc5f37e55;0xfee910c32ec3c68486ce558aa92eb0c7;0xa9cf0990cc9057db73b2ea05ebcc5303;0x28b311d3f5d3f21db61b74caf7f5bb46;0x7c8fd09e259ea77b61cf2f3d4925fcaa;0xf281f6bbe6bb50600e2b43a9dfe66567;0xbfda700cca0c171a142f6830d9ca9610;0xf4b5858782871b124ab84859e482ee37;0xcba4a5c2dec254d985e7e28e75de4d7a;0x0634733c643c4b7244930bf03b648b50;0xf8dd63ff4aff8df6c25d5e7a924a3b97;0xbd77e01857182e34285ed0607157ef20;0x75c99dc4bbc4bed48f11d696f8bb0672;0x031ad81e321ec43922a8e478fc32a428;0x4ceccebd83bdba6d04dd77b152832e6f;0x4b6ff58b488b0c085e9720693d487827;0xc04f788cdd8c74585748a3756cddce92;0x0499e328f928725c78e2b3a093f9f260;0xb3b29674027481fe9cca7e13af0243b0;0xb69c3d5654560eb5faf1919b68546cc8;0x51126a6f866fda2db1efb47f79866894;0xebe6b1411a41427cc3fb33c7671ad1fc;0x981b5fb9c5b9b7da0879eea1a4c55cde;0x2358cc9df69dd29c64b43531eef638ae;0xab62998451846ef54fc3525543512a33;0xb205de7ead7e7ce98213223bfbad9ea8;0x99ac17b36ab34acd16a0b289f06a81c6;0x898d1d130813417e35ae3b4cf908cf85;0xdf1c4c4a454a2d36de0bd8ebef45f159;0x0ddfae7267726bf3963c4a0b226708b8;0x31d456290929e0017bcb04a44f090fdd;0x70e736e6ede6319fe92a391e3fed290a;0x73fdeef8dff8f5a6cb82dd66c3df8d22;0x1dfea4d205d26040b532c3ce2b0546fb;0x8d14fe3bf13b33224d4c88ec6af13de5;0xf19b2ea5d4a594592c83a7d123d4c14f;0x7d3898948a945a6c7f1673151d8a21b2;0x17a23196a996bdd67944de1d66a9180b;0x2c2af2fb0cfb8041cef9c76a640c4926;0x354db501f001925d0329b704dcf0fdbd;0x883a5519a719bc692b776764ada7129d;0x6745077044708c49906ee70359443101;0xe1ba2405b6059fea0f8d2e142ab68f0c;0xb586e5486648ca8cd85975e39466c8e0;0x645fdf6e766e4870b2c6037ba5769529;0xb11f06609f60b8d0a0bbc643079f3a80;0x08f105503150e4b8f007a583e53127c0;0xe523c72d4f2dedb6776f9db4b94f7d6c;0x1c49ecd8aad89d57abeb9fe67faa9be3;0x6b2de1088c081aad188bf1202f8ce4a1;0x5ccdc41de11db1de27d3fe745be1602c;0xa3939cd460d48a4dbfc4f7d6a6600df3;0x7abba3a241a2ec09255c24cd724177fa;0xe8fc695f285f8645e153d7bf9b2875d4;0xda32e7681368a27db83037632813de21;0xd7ed491a741ac98e2e0c7d680a74d699;0xfa70f3ebd7ebb4d8fe2ce62a3ad742a7;0xa70a7ffc99fcf811c72644763599ff93;0x7f950880178063424367cb45b5175882;0xe4948f27e02710a169b6c19cede0a074;0x8fb96e2f6c2f0a0c713d30bcc26c44d5;0xa13e0cc0fdc0b36383b54f860efd74c3;0x5208b271b4711e149347500785b4ccbc;0xec658a77d177f41999b1641f08d187b4;0x3b88c36da56d3d97b7bd197702a5512d;0xa224d4decfde775aa11dabfef2cfd0eb;0x5fd71c03d30375e7057b1a0ca7d3c404;0x50a522652965273aaf36e8572d29b58c;0x4ad8bd81e781f11f404e7c4169e7a53f;0x57261953e253915ff57cbf8f42e2e3c4;0x558b89477f47a871c90d07dfea7f9af4;0xdc0694547754e90ffca33c9313775571;0xdeab0440ea40d021c0d284c3bbea2c41;0x9d35f49b939b38916e420129639373a6;0xe78e5739d239d4984b1e25e411d2045c;0xaffb7aaca8ac1ca93721e1f5d0a8d853;0x976961df3fdfe507a2341cfa2e3f2d56;0xaad5d18efe8e93e2511a0e7d17fef72b;0x267667bfa0bf5dd7028fdab929a017d6;0x4d5b86b72cb7477a1a042b99062cf377;0x543cc14dd04d5566d7d45bf7bed047ec;0xf7af5d99b099df2b6810ac2118b04a1f;0xd9283f76217666449a98d31bd4217a09;0x8452b3616f612a8da3927147db6fc73d;0x413360cfe4cfd19e92e13dba70e426d7;0x8266c05d0b5d61ffe7017ab7e00b4c6d;0xd65a0110db10349930d521405edb0b81;0xb72b755cfb5cf3a2e428cdb33cfbb1d0;0xdb85af62bc625f6aa6e96b4b7cbc0339;0x2ba9c9cdc7cd362494b390b20bc71f6e;0xa6bd37f636f60506d9ff185e6136228b;0x38921b739773f9ae9515fd0ffe97f505;0xce8a0ee088e0db92e3dc0d06b2886202;0x95c4f1cba2cbdc299e45a4aa86a25466;0x71507eec42eccc88f7f365366b42f412;0xc355a092ef92b06175e0470d90ef6aba;0x8e0e2625c325f71b6fe46c9496c399cd;0x9ab6cfad58ad8ef4340856f10c5825ee;0xef7f5269e3693020bb198067f4e3239c;0x256cbfa192a199ee20273ec1d592b3fe;0xa410a7e2abe23c28e58ea00ec9ab5bbb;0xe94b215587557b52ff8a8b97cf87a8cc;0x3c0bf85b6e5b8bf2edf74eaf6d6e0765;0x6fb40220752068f160694280bc7516c1;0x02ad90149d14392e3c71b850a89d7930;0x01b7480aaf0afd171ed95c2854afdd18;0x0a5c9544ac44dd96cc761dd34dac5ef0;0x09464d5a9e5a19afeedef9abb19efad8;0x9473b9c10dc1213e809cf882d20d897e;0xedd2c27d7e7d090e876838375c7e5aac;0x59e36f3fb73f3e9541e811fc9cb74f54;0x6171744c204cc73bd4fdecf36220ba51;0x6980711c111c238324fa497087119d91;0x290459d95ad90f0aa8c228e2a35a665e;0xb0a84e6a306a45c7be629a6b5330e798;0x30631e23a6231d166512588c1ba6d2c5;0x60c63c468f463a2cca24b0db368f6749;0x747ed5ce14ce43c391c88abeac14db6a;0x22ef849759972f8b7a6d6919ba59e5b6;0x0c68e678c87896e488e5162376c8d5a0;0xcd90d6febafe1fabc174e97e4ebac62a;0x7b0ceba8eea8111e3b8578e526eeaae2;0x5b4eff2b2a2b07bb7d99a9ac342a3664;0x408428c54bc52c898c386192244bfbcf;0xe317b4112b11a6c433fc9644822bf63c;0x14b8e9889b8879ef5bec3a659a9bbc23;0x00000000000000000000000000000000;0xfdf3c8dd1cdd02bda466b1f2551c14ef;0x781633b6dcb6d527192d9c9ddadc0eca;0xad56eab835b825870b5059a57835a163;0xd06e722cbf2c7feb74462ab065bf80d1;0x915d12e35be3ae75e6a7170a155ba606;0xfc4480d7b3d7ffaababfedda01b3c9f7;0xf96a2bf5e5f570e1dc840252c6e5e68f;0xea51f94bb54bbf6bdd226fef33b50ce4;0x85e5fb6bc06bd79abd4b2d6f8fc01a25;0x7e22408ab88a9e555dbe976de1b8859a;0x77640dd026d087fab3606ec650267f42;0xc7cc43ba16bac23d0d02f4ad031698da;0xc561d3ae8baefb1331734cfdab8be1ea;0x5d7a8c174e174cc9390aa25c0f4ebd34;0x3a3f8b670a67c080a964455f560a8c35;0xd540d90ee90ef0a0127dc538a2e9afa9;0x66f24f7aeb7a715e8eb7bb2b0debec19;0x8b208d079507785009df831c5195b6b5;0x49c2659fd59f352662e6983995d50117;0xc2e2e89840984d766b391b25c440b7a2;0xc67b0bb0b9b03f2a13dba88557b945c2;0x569151594d596c48eba5e3a7164d3edc;0x4e415ea91ea9834338accfe1fa1e575f;0x27c12fb50fb5a0c01c5686917d0fcace;0xe6391f337d33298f55c779cc457dd944;0x93f082f7c6f7975bdad6af5abdc6df36;0xbb439324332465466ccddb904a336470;0xd1d93a26102682fc6a9f769831105dc9;0x63dce458bd58fe15e88c54a3cabdc361;0xc1f830867286894f4991ff5d3872138a;0x45aa83e71de7a3c2ea038e1ae31dd4b7;0xc8be7ddcecdc90e0a74f06f689ece952;0x1615799c069c40c1679d82353206c513;0x1bcad7ee61ee2b32f1a1c83e1061cdab;0x20421483c48316a5461cd14912c49c86;0x9b0187a7f7a773e32ad10ad958f7f8f6;0xf336beb149b1ad7710f21f818b49b87f;0xb8594b3a013aa17f4e653fe8b601c058;0xf02c66af7baf694e325afbf9777b1c57;0x2f302ae53ee54478ec512312983eed0e;0xbaf4db2e9c2e9851721487b81e9cb968;0x4ff616a3b1a37e54267593c9aeb18a47;0xbe6d38066506ea0d0af634188d654b08;0x128c9ab4ffb4329d1f7f3195a1ff3773;0x439ef0db79dbe8b0ae9085ead8795fe7;0xcf3d46ea27ea2685fd05512ee627bf1a;0xc90935d643d66df7b9965adedd43344a;0x2a1e81c768c7cb338a6acc9a5f68c276;0x119642aacdaaf6a43dd7d5ed5dcd935b;0x150fa182348284f84535664dce34613b;0xf61815931f93223c76c9f0094c1f9707;0x626bac5212520302f655088b9e121e79;0xcc279ef415f4e2bcdfadb5561a151b32;0xe00d6c0f190f62fd1154723c7e195214;0x8ca3b6315e31ce355395d4c43e5ee0fd;0x90ea5ae9f4e95362f87e4b2241f47b1e;0x470713f380f39aecd672364a4b80ad87;0xff5e58c981c93b93981709a2fd816ddf;0x817c18433943a5c6c5a99ecf1c39e845;0x5e6054097c0988f01ba24624f37c191c;0xfbc7bbe178e149cfe0f5ba026e789fbf;0x79a17bbc73bc283007f4c0b58e73d3d2;0x36576d1fc21f56642181537c20c25995;0x32ce8e373b3724385963e0dcb33babf5;0x0ec5766c556cafcab494ae73de55ac90;0xd374aa328d32bbd256eecec8998d24f9;0x3379c63d943dd92f47babcf4e79476ed;0x53bffa7b1b7be3038d9e0c2fd11b11a4;0x87486b7f5d7feeb4813a953f275d6315;0x21f55c896b89ebb258c58d61466b419e;0xd4f7910446040db70ca49910f64672b1;0x07833b36cb36b6655a4a57d86fcb5648;0x48752d957a95c8317c3fc411c17adc0f;0xddb1dc5ed85e1418e27a60bb47d88869;0x6e034a2ada2a95e67eb01ea8e8dacbd9;0xc4d69ba424a406042faa10d5ff243cf2;0x585427351835c3825f314dd4c818924c;0x9c82bc913c91c586709b5d01373caebe;0x052eab2256228f4b663bef88c7562f78;0x196747fafcfa121ccdd0706eb8fcb49b;0xd89f777c8e7c9b5384418f33808ea711;0x80cb5049964958d1db70c2e74896355d;0x9e2f2c85a185fca84ceae5519fa1d78e;0x441dcbedb2ed5ed5f4dad232b7b209af;0xca13edc871c8a9ce9b3ebea621719062;0x3dbcb051c15176e5f32e128739c1da7d;0x2e8762ef91efb96ff2887f3acc913016;0x724aa6f270f208b1d55b814e9770503a;0x4229b8d1d6d115a7b049d9c28cd682ff;0x65e89764d964b567ac1f5f53f1d94831];
   [0x04c3b681363e4dde9fbecc925e72118f;0xc53429ba337a218a27609b0b90fb32b5;0xdf7b409b9ce18b644d3d10a8b82dbdb7;0xb784271f65c8665a268a796118f3c4bf;0x1e8cdfa099a5e730f5e3473176a49e8d;0x269414a25e12a78e435805c1c45d70db;0xffacb919efd2a65b3f84bfb20d3b3545;0xc8f2fc4b85d674fd12af3fbb849094b4;0x7bb56dd5d6205f79ab9b8a48c2114184;0x7af5a1643aceddaffc55b98d34ecd4d7;0xe82505c9f6e559c2601690a131861c46;0xa00d9bcf7cff99c379185672244eedbc;0x3e5b2622ea96ca0f875ae82bc3b2167f;0xe965c9781a0bdb1437d8a364c77b8915;0x09056370809218a9aa7168224a19b78e;0x18cf3280b4846d81c402edea07ef66a4;0xba42f2eed364332d1345ddd10c9862be;0x831af55df83df145f230ace4489c19bb;0x1fcc1311754b65e6a22d74f480590bde;0x339df3d35c3a9f78b2954c9bd7d9b07e;0xb1c7ca3f48e9eceb176bd3ba69b83c96;0xb6c4ebae8926e48c71444aa4ee0e51ec;0x462edce7cb47d0cfd55037efd8672b0e;0x7875fac521d11ac0520adfc41bd53d71;0x5b629457a5137246d92225527707c976;0x80da624d0fccb4fc0ba1f9689158654e;0x8c5c7b0d558e635d69a06e1d73ce561c;0xebe592d901141c7b9987c52de84260b3;0x2d112c73c59f784847760baaa17d2ef3;0xfb6f0f98d9eceb85a03a7320534924ca;0xd938adbbb1c001d57cdcba73c966459e;0xe060aa089a99c3bd9da9cb468d623e9b;0x9e56bded966953ccfe42be59e7fcfbc3;0x361e89e386ea50707ae5b3cc7f5634a2;0x42ed6a66fd799d114aeefb7d86153a81;0x43ada6d711971fc71d20c8b870e8afd2;0xde3b8c2a700f09b21af3236d4ed028e4;0xaf4b159fd14c0bdbe288948b1f1ca21b;0x56a441a613bf2731eced81e2636c6f77;0xdbb8f61aaadfc6bad283dc3ae65fac38;0x703055044dad80bfafb58423a7311fac;0x3f1bea93067848d9d094dbee354f832c;0x773374958c6288d8c99a1d3d208772d6;0x75b32f34977d4fb767c57b740fbe9b70;0x87d943dcce03bc9b6d8e607616ee0834;0x9390681c20c506bbcb8d1ae9f3975dc2;0x1d4c48b06e54a2890c7212bdaf60e278;0xfd2ce2b8f4cd613491dbd9fb2202dce3;0x9a950b6ca0571e1261fc72cbb98eea4c;0xeaa55e68edfa9eadce49f6e81ebff5e0;0xe5e3d03840490cb555d9341125edba47;0x5564d6b6e44e6288157cd46ebaa81382;0x4dabe43650ca0f09d17e3984bd477526;0x2f9177d2de80bf27e9296de38e44c755;0x8edc20ac4e91a432c7ff08545cf7bfba;0xab88a31ee77246057d365819416eb394;0xece6b348c0db141cffa85c336ff40dc9;0x64797ec4a36b3a9f09b6febc42484a5a;0xb347919e53f62b84b934b5f34681d530;0xd5beb4fbeb82d6741edd2d062bf076cc;0x911033bd3bdac1d465d27ca0dcaeb464;0x5ee1ee677fc3bd4e1152da05df884daa;0x219735339fddafe925779cdf43eb1da1;0x496852b766f442d74ec0f516e33564a9;0x5fa122d6932d3f98469ce9c02975d8f9;0x6539b2754f85b8495e78cd79b4b5df09;0x53273b96c96fe839249d7eb5cbe3ebab;0x27d4d813b2fc25581496360432a0e588;0xcc314acab3e839238d11f329dae2853b;0x61fa04f479bbf597c1c601ebeac7ce86;0x825a39ec14d37393a5fe9f21be618ce8;0xcff1ddda44197c9a7480a6a50326f9ce;0xfa2fc32935026953f7f440e5a5b4b199;0xbfc188de09b4fc25db352286a417e662;0xca72a7ea9ec9b392bcf059f2aba97d12;0x4e6b7326a73b4ab028ef6c08648309d3;0x9753de9d16fb4b655433d67bade54c4d;0x9bd5c7dd4cb99cc43632410e4f737f1f;0x8d1cb7bcb960e18b3e6e5dd88533c34f;0x68ff6784f929ed3e6bb769c9a0de7908;0x1509e771022838f6f1cd495a1384c0a5;0xfc6c2e091823e3e2c615ea3ed4ff49b0;0xfeec75a8033c248d684a8c77fbc6a016;0x58a2034752e237ff20b370deaec3b583;0x120ac6e0c3e7309197e2d0449432addf;0x1b0fa590437528383d93b866de2b1a51;0x108a9d41d8f8f7fe39bdb60dbb0b4479;0xc1f79f3b05446c54b8de5799ce89233a;0xe2e0f1a9818604d233f6ad0fa25bd73d;0x198ffe31586aef5793ccde2ff112f3f7;0x5267f72725816aef73534d703d1e7ef8;0xef262458372a51a5063909bfb630713c;0xdcbbd78b6b10ceddb4ac452461e9c142;0xf0ea374942613443a4147d4b36697ae2;0x3cdb7d83f1890d6029058e62ec8bffd9;0x9cd6e64c8d7694a3501dd810c8c51265;0xbe81446fe55a7ef38cfb114352ea7331;0x3818cb02c7b740beb6bb42f0b2f9ee56;0x2b52c153e8bef2f97697a171d036d6da;0xc9b230fa6938f62b45610c7e726d01e7;0x24144f03450d60e1ed076388eb64997d;0x981550cdbb48d97dcfa3148296b703ea;0x305d64c3abcbdac14b0419170e1dcc8b;0x0c8619405a42d7a162019775e2963352;0x69bfab3515c76fe83c795a0c5623ec5b;0x54241a0708a0e05e42b2e7ab4c5586d1;0xee66e8e9dbc4d37351f73a7a40cde46f;0xb5047cbe7ed7a13588d51f2837ca2d19;0x4f2bbf974bd5c8667f215fcd927e9c80;0x395807b32b59c268e175713544047b05;0x6a7f3c25e2362a51c5e80f808fe790ae;0x1c0c840182ba205f5bbc2178599d772b;0x89df013d8f5eac55a1d0914adb41d2c0;0x66f92565b874fdf0a7e998f56d71a3fc;0xa58ee1ffa62f56cbb168a9258cc16960;0xe4a31c89aca78e63021707d4d3102f14;0x72b00ea556b247d001eae26a8808f60a;0xf6a9da696f40bef295f5d790472282cb;0x14492bc0eec6ba20a6037a9fe57955f6;0x02805ba11b1fc76fae5f66492f39e9a6;0x50e7ac863e9ead80dd0c2b391227975e;0xbd41d37f12ab3b4a756a44cf8b2e0fc4;0x9f16715c7a87d11aa98c8d9c11016e90;0xe3a03d186d68860464389eca54a6426e;0x05837a30dad0cf08c870ff57a88f84dc;0x07032191c1cf0867662f991e87b66d7a;0x889fcd8c63b02e83f61ea28f2dbc4793;0xcb326b5b72273144eb3e6a375d54e841;0x3a9890a3dca887d118e424b99dc007f0;0x8559187dd51c7bf4c3d1063f39d7e192;0x412dfd760a88d8a8b37faef15fd14674;0x2a120de20450702f215992b426cb4389;0x92d0a4adcc2b846d9c43292c056ac891;0xb98265fe24957694ead4885dd55c1e4b;0xe6234728b7b8490cac48619dfc29c6b2;0xf26a6ce8597ef32c0a4b1b0219509344;0x289256431f4fb7408f06f4fd09f2aa2f;0x7df680f5fb01d5c89a7a2093b35ab9ad;0xbb023e5f3f8ab1fb448bee14fa65f7ed;0xf32aa059b59071fa5d8528c7efad0617;0xe7638b995b56cbdafb8652580ad453e1;0xadcb4e3eca53ccb44cd7f2c230254bbd;0x0e0642e1415d10cecc5ef13ccdafdaf4;0x7673b824608c0a0e9e542ef8d67ae785;0x3bd85c12304605074f2a177c6b3d92a3;0x6d7c1db423f92236a3c7969e0851fdd4;0x20d7f98273332d3f72b9af1ab51688f2;0xa908f8bffc6d816ad3693e506e575a32;0x0b8538d19b8ddfc6042e0e6b65205e28;0xceb1116ba8f7fe4c234e9560f5db6c9d;0x8f9cec1da27f26e490313b91aa0a2ae9;0x9493498de10a0edcada283f7742130b8;0x4ceb2887bc248ddf86b00a414bbae075;0x29d29af2f3a13596d8c8c738ff0f3f7c;0x5a2258e649fdf0908eec169781fa5c25;0xb444b00f923923e3df1b2cedc137b84a;0x6ebc8aa4d408678f5a56c312d1958121;0x1a4f6921af9baaee6a5d8ba328d68f02;0xf7e916d883ae3c24c23be455b1df1798;0x67b9e9d4549a7f26f027ab309b8c36af;0xd4fe784a076c54a249131ec3dd0de39f;0xb8c2a94fc87bf442bd1abb9823a18b18;0xd878610a5d2e83032b1289b63f9bd0cd;0x8a1f962d78afe9ec5841c4c60285ae35;0xdaf83aab4631446c854defff10a2396b;0x00000000000000000000000000000000;0x3d9bb1321d678fb67ecbbda71a766a8a;0x99559c7c57a65bab986d2747604a96b9;0xd3fd59dbc6a35cc52f3c87dd5abb8ee5;0x9d962afd6198167507d3ebd53e388736;0x7e3617e50cf0907163eb751f6a9ec558;0x0643ed202d218ab131e1aadb714bf829;0xd17d027addbc9baa8163e19475826743;0xaac86faf0b9cc4d32af86bdcb79326c7;0xa4ce2d4e4ac1d41de6a69ae07a3cfc33;0x03c09710f7f145b9f991558cd9c47cf5;0x23176e9284c268868b28fa966cd2f407;0x0ac5f46077635d1053e03dae93ddcb7b;0x7cb64c4417ef571ecdb4135645a72cfe;0x2257a223682cea50dce6c9539a2f6154;0x375e45526a04d2a62d2b800989aba1f1;0x4aa8c5a79105076eb751a09a3af1185c;0x2ed1bb63326e3df1bee75e2678b95206;0x255483b2a9e3e237bac9504d1d990c2e;0xf8af98882e1dae3c59ab26ac8a8d583f;0xddfb1b3a87fe4c0be36276e197145411;0x311da872472558171cca2ad2f8e059d8;0x74f3e3857b93cd61300b48b1f9430e23;0x59e2cff6be0cb529777d431b583e20d0;0xcd71867b5f06bbf5dadfc0ec2c1f1068;0x5d2179778832f8f7e8c38f89064c315f;0x0845afc16c7c9a7ffdbf5be7bce422dd;0x7f76db54e01e12a7342546da9c63500b;0xa64e76ef51de137248f9fca955051595;0xf9ef5439c2f32cea0e6515697c70cd6c;0x9050ff0cd7344302321c4f652a532137;0x0f468e50adb392189b90c2f93b524fa7;0xb087068ea4076e3d40a5e07f9f45a9c5;0xac8b828f26bd4e621b19c107c6d8deee;0x60bac845955577419608322e1c3a5bd5;0x6c3cd105cf17a0e0f409a55bfeac6887;0x134a0a512f09b247c02ce38162cf388c;0xbc011fcefe45b99c22a4770a7dd39a97;0x32dd3f62b0d41daee55b7f5e2124252d;0xf1aafbf8ae8fb695f3da4e8ec094efb1;0xd67e23eb1c7393cde74c788af2340a39;0x44ae8746d05817a07b0f51a6f75ec2a8;0x623a93e48e4ab02e385754673303b273;0xa848340e108303bc84a70d9598aacf61;0x406d31c7e6665a7ee4b19d34a92cd327;0x95d3853c0de48c0afa6cb03282dca5eb;0x11ca51f0341675286e7385c84df6d12a;0x8b5f5a9c94416b3a0f8ff703f4783b66;0x0140ccb1ecee82d657ce33c5f6fd9553;0x0dc6d5f1b6ac557735cfa4b0146ba601;0xe12066b97677416bca67f8837b9fabc8;0x6b3ff0940ed8a88792263c45791a05fd;0xc237082bf2b529ed414f0215174d5fcf;0x5c61b5c664dc7a21bf0dbc4cf0b1a40c;0xc7b4721b2865e6e5893ffd42bfc2db13;0x8419d4cc39f2f922941f35facf2a74c1;0x45ee4bf73cb695762cc1626301a357fb;0x79353674cd3f981605c4ec01ed28a822;0x4be809167deb85b8e09f935fcc0c8d0f;0x48289e068a1ac001190ec6d315c8f1fa;0x6ffc461538e6e5590d98f0d727681472;0xa70eba5ebd3091a41f37cf6ca3f880c6;0xa28dc06e67e05eacd747303b0b77041a;0xc0b7538ae9aaee82ef10645c3874b669;0x2c51e0c22971fa9e10b8386f5780bba0;0x819aaefce322362a5c6fcaad67a5f01d;0xd03dcecb3152197cd6add251837ff210;0x1789bcd01937ff995f922f133cbd2903;0xa3cd0cdf8b0edc7a808903fefd8a9149;0xd2bd956a2a4dde1378f2b418ac461bb6;0x57e48d17ff51a5e7bb23b2279591fa24;0x717099b5a1430269f87bb7e651cc8aff;0xa14d577e90111b152ed665b7d2b378ef;0xc377c49a1e5bab3b168131d0e1b0ca9c;0x51a76037d2702f568ac218fce4da020d;0x35de1ef3711b15c98374e640a6924857;0x476e105627a95219829e042a2e9abe5d;0xf5694d7998b1fb4b6c64821c9ee6fe3e;0xb2075d2fbf18a952eefa8636b07c4063;0xd73eef5af09d111bb0824b4f04c99f6a;0x16c97061f5d97d4f085c1cd6ca40bc50;0x86998f6d22ed3e4d3a4053b3e0139d67;0x73f0c214ba5cc5065624d1af7ef56359;0xc474e50bdf94a35c70aea8ce6606a7e6;0x349ed2429df5971fd4bad585506fdd04;0xc6f4beaac48b6433def1ce87493f4e40;0x9613122cfa15c9b303fde5be5b18d91e;0xeda67ff92c3596caa8666ff69909989a;0xf42981c8745f799d3baab1d9681b6b6d;0xae0bd92e3da2890db546a74ee9e13748;0x637a5f5562a432f86f9967a2c5fe2720];
   [0x7980abe7a96f5097be20db5ab51af0b4;0x911a971614459f6e60e7ef550a5862aa;0x99dc5f93d13294303d37fc6789097fce;0xb942f9c2432db88b8af1b0afc08e0b9d;0x714663626c185bc9e3f0c868364bedd0;0xea4a0e411d47bd0f58f340e2efc70407;0xd7564ea7d0cc510284f4ebf268d9f327;0x9579f3b5979f7b41af8f074caa918d98;0x55bba1907ddd935d9b5e6cb9df0576b1;0xda9bfbd9c6b6870855562a4e63e24a9c;0xdbf3e2819661be73164c10d94b410171;0xb5e755e4058057fa18494b84e316f9cb;0x3fcc72566de69efb5a33dffdd79b6139;0x54d3b8c82d0aaa26d844562ef7a63d5c;0x7de3cf442ab5b4b87148334315d31f86;0xd5867c1770a123f402c09f1f385c653e;0xbd219d61c0f75ca4459958b66047e4af;0xa90daa0b0ac3ae37309296cb052c3155;0xfe66392bd7734f9c2df88e9f8aacd1fd;0x3baf16f5ee3c7ad4955b37e477528e0b;0x1d82e6b75f94c0b66bc1e7d8ce998373;0x3662a38bf846acde44f9f6587c6937b0;0x38173d1d1e8631595075799e0f7453ff;0x07db4f4b7360afa20a46a663d8ef32c6;0x1b31b0a47c23566f229d7b2c3ed5fa58;0xfb6d44d0047e92c8a18a5c1102c67522;0x702e7a3a3ccf62b2a0eaf2ff1ee8a63d;0x89930c5a98dc828c8754da034cab4506;0x4ae975978224211d76abff8c411963db;0xaed6e54079a301953ad430a8ddc30393;0x3d1c40e6cd8bec0ddc07ab10871ef720;0x2930778c07bf1e9ea90c656de27522da;0x8a2b27b26866c901427a9479348d98f2;0xcd0fe75bfc383e16e573aa497eaf4292;0x419796fab7e961ceee55a2c4ba6ea34b;0xceb7ccb30c82759b205de43306899f66;0x16fc05da6a598065f33fba9035ee43e3;0x6cc485d5338c9b7f88312fb0f8d26ea3;0x1f52d407fff9b240edf593359e1c156a;0xe05cf474785dc4a78317273d3c138f7a;0xf518da46e2be0f4fb506d3d771db116d;0xb0ec281fd68d8aae943b990a6b7c5d14;0xdef89f7a456c63279a3ec257c32ba5ae;0x03b82be8f0ba4b8dc52e4e7a7826ddf4;0xd08d01eca3acfea08eb24d91b036c1e1;0x8e484311ebbc2d2e8d127c60944477c0;0x23268db962a5673672e802b231a1a9a7;0x0a16fa35651a79a8dbe467dfd3d48b7d;0xf3ab8c55c1099996fc5a4f2381976846;0x06b3561323b796d9495c9cf4f04c792b;0xdf90862215bb5a5cd924f8c0eb88ee43;0x4d323adcf1448ebf7ced59ef99f6511d;0x98b446cb81e5ad4b7e2dc6f0a1aa3423;0x97a9c10537f209b729bb73a1fa141b81;0xad6ecea889194a18fffa7ed2a5e5de67;0x15442e329ae3cbe83611f4ea4dc89e17;0xa27349663f0eeee4a86ccb83fe5bf1c5;0xabdd98bbaaaedcc1b6a6e22655a9a74c;0xc0c25225ea42e81c34d16bf57594fb29;0xb65f7e0cf53a1c77dd6705fe9b30243f;0x5308f7835e6a0584d202f04d2f490f9a;0xed91410a6e2712ad52b5e681372836c1;0xc1aa4b7dba95d16777cb51625d37b0c4;0xe134ed2c288afddcc00d1daa14b0c497;0x62b11b43d54c06f89cbda0768bcf0aec;0x24fdc2f211c5c89478aea4d1e94e9b61;0xe9f225a9edfdf6829ddd0e9897e1d9f3;0x656a5408a62ca95a96fb06155320382a;0xecf958523ef02bd611afdc161f8b7d2c;0x5d7d6915b8aa9803c68e7f8b5c546bd5;0x262df042b1a8ba62fe9ad03cb9cb0d78;0xbe99b689304d172980b716cc1861395b;0x21f6bf09c2c815c0f4dc765f61243fbe;0x4b816ccfd2f3186635b1c51b69ba2836;0x48394727224953ebf09f8b61119cf5c2;0xcad4a8108f5891b4ef350c2aa6407054;0xf7c8e8f642d37db93332a73a215e8774;0x7c8bd61c7a628dc3325209d43d70546b;0xff0e207387a476e76ee2b408a20f9a10;0x209ea651921f2cbbb7c64cc849877453;0xd1e518b4f37bc7dbcda8770698958a0c;0x8536a07cde716dfd15ec21286f33b750;0x587614ee6ba745574afcad05d43ecf0a;0x49515e7f729e6a90b385b1f6393fbe2f;0xfa055d8854a9abb3e29066862a653ecf;0x87e692cc7e1c1f0b93d855c53fb62149;0x2745e91ae17f8319bd80eaab91684695;0xe89a3cf1bd2acff9dec7340fbf42921e;0xf470c31eb2693634f61ce94059785a80;0x5aa6265ecbca37a1ccc8d9e884bb5913;0x66d27fe05696e2d753d5486f2b06e5de;0xf013a7bd31b3d21b39740159f9b1b5b2;0xcbbcb148df8fa8cfac2f36bd8ee33bb9;0x0e759e96e6c09d87148c8fc6731d644f;0xe28cc6c4d830b651052353d06c961963;0x576b9320ddb0e1ab1d6a18548f80e0a8;0xc4a1368669980c33fbb983ecd55d141b;0x9b0c6d23715fe6c6bb03888ad98ce9d7;0xee296ae29e9d5920979ba8fb4f0eeb35;0x1a59a9fc2cf46f14618741bb1676b1b5;0x370abad3a89195a507e3cccf54ca7c5d;0x2eeb38c774dfb13ca34ac30e3a9a101c;0x69cff82ee081462b0443fd3e70b8ca7c;0x8b433eea38b1f07a0160aeee1c2ed31f;0xafbefc18297438ee79ce0a3ff560487e;0xc21260954a2f9aeab2e51f1825116d30;0x7f33fdf48ad8c64ef77c47ae4556899f;0x64024d50f6fb9021d5e13c827b8373c7;0x45f4f259343385e1213d4add1aa74c79;0x142c376aca34f293750bce7d656bd5fa;0xfdde12c327c90411e8d6c0e5f28a0c09;0xac06d7f0d9ce7363bce044458d46958a;0x868e8b942ecb2670d0c26f5217156aa4;0x769d2c291f78f46be9b66e0beea4df16;0x4347a44a178413386861d629eaeb3552;0x50b0dc6baed04e09172cbe37576fd26e;0x28586ed4576827e5ea165ffacad66937;0xaab581e3fa79e5baf5bcd8b17d0aeca1;0x5ec542fd4810d38e03a031f12472b621;0xdd40b492b5d628aa5f108c2dbb0d785a;0xbb92cb72e340ca7d0cc5c442900b9d84;0x96c1d85d672530cc6aa14936d2b7506c;0x050b7dfbd30ddd548c72d28e886aa4df;0x7b509957090222613814afb7e59f66ad;0xf6a0f1ae120444c270289dad09fdcc99;0x2be0453ca7d26c682f381180b2f0b4c3;0x09aed1dd95a032251eca29a5abf25689;0xc7191d6e992247be3e97cd96ad7bc9ef;0x464cd9b1c489ce6ce41304a76281918d;0x0dcdb57e167ad60ad1a2c1bc0b3bb9bb;0x13f77821b9545d317f4d681ebd84e73c;0x610930ab25f64d755993ee0cf3e9d718;0x0168195850d7397b431a3a9728a34bed;0xef4173bace4a605bd481926c67ada0d8;0x8df068f91b0666a3483c321aec62aa34;0xd3352a045316b52d4b9c03ebc8101c15;0xbc498439902065df0683622148e4af42;0xf17bbee56164eb607a6e3bced112fe5f;0x3201c7287b9c48f18b911e41dca0d882;0x5c15704de87da1788594451c74f72038;0x02d032b0a06d72f6863474ed50859619;0xb1843147865ab3d5d721a39d43df16f9;0x56038a788d67d8d05e7022c3a723ab45;0x51d8c533fe077772543684a07fcc9983;0xc96c83f87fe2da392a1b4250de66ada0;0xd63e57ff801b6879c7eed165407ab8ca;0x4e8a113401fec532b9c31795e1d08ce9;0xc8049aa02f35e342690178c7f6c5e64d;0xa0a37bd69f639c122e58bf6eaede67dc;0x31b9ecc08b26037c4ebf503ba4860576;0x224e94e132725e4d31f238251902e24a;0xa5a8062d4c6e4146a22a6de026b4c303;0x17941c823a8eb91eb02580071d4d080e;0x3369de702b4b718ac88b24d6f403936f;0x9411eaedc748423aec953ddb8232c675;0xeb2217194d9084741be97a75c7644fea;0x845eb9248ea6548656f61bbf4790fcbd;0x08c6c885c5770b5e5dd0133283511d64;0x2595dbaa4112f1ef3bb49e46c1edd08c;0xf9bd7660a413e03e27be28fc5243e33b;0x397f24454e510822136f430927d71812;0x606129f37521740e1a89d49bdb4a9cf5;0xb23c1aaf76e0f858120fede73bf9cb0d;0xd4ee654f20761a8f41daa58810ff2ed3;0x6f7cae3dc336d0f24d1f61ca80f4b357;0x00000000000000000000000000000000;0x6dac9c8d635ba204cb2b1527d071254e;0xa1cb628ecfb4a5696d4285f9867d2c31;0x129f6179e983644a3c5752899527acd1;0xd84bc96966dbf5fed3625ea33367dc85;0xa31b503e6fd9d79feb76f114d6f8ba28;0xa4c01f751cb9783de13057770e1788ee;0xcfdfd5eb5c554ce06347dea42e2ad48b;0x9a64747b2188dfbdf819b21df12fa23a;0xcc67fe03acef076da66990de560c097f;0x5260eedb0ebd3cff9118cada07ea4477;0x1ceaffef0f43f9cd28dbdd4fe63ac89e;0x2f83219f24088847e050f99912395bf1;0x7e5be4acda0fff35b4667d396df5c272;0x93caa5a6b428ed98e6d39bb85addf4b3;0x422fbd1247532a432b7becbec2487ebf;0xb35403f72637c1235115d770135a80e0;0x18899b4c8c991de2e7b3355646f327ac;0xb82ae09a13fa81f0c9eb8a38e82d4070;0xfcb60b9b771e3d6aabccfa72da2947e4;0x449ceb0164e4bc9a6227704a32040794;0xe6efa2675bea527eca4bbbc9cc5ff651;0x8c9871a14bd15fd80b26088dc4c1e1d9;0xc6710436c9f57ec57d8df70185d88202;0x63d9021b859b3f83dfa79ae1a36c4101;0xbff1afd1609a2e52c3ad2c5b30c272b6;0xf2c3950d91dea0edbf4075b4a93423ab;0x2c3b0a77d4b2c3ca257eb7e36a1f8605;0x11274a9119392fc7f9791cf3ed017125;0x739651d2cc75293f65c4bc8566ce7bc9;0xdc28adcae50111d11c0ab6ba93ae33b7;0xd923d031360ccc85907864341bc49768;0x92a2bcfee4ffd4e3a5c9a12f727ebf5e;0x3ea46b0e3d31a7801929e56aff382ad4;0xd25d335c03c18c560886397ce0b357f8;0x591e0db63b707c2c09e69792fc9d84e7;0x752507c1efc2bfe62c982071968202e2;0x19e18214dc4e2499a4a90fc16e506c41;0xb48f4cbc55576e815b537113cbb5b226;0x8155c4df5dab89d2da84c931cffa5862;0xe43f90d7fb8720884c7fcf249cda6048;0xe557898fab5019f30f65f5b3b4792ba5;0x0f1d87ceb617a4fc5796b5515bbe2fa2;0x4724c0e9945ef717a7093e304a22da60;0x9cd72268023f4964b1452ee90163db11;0x2a885c64f70555136c222b179a53ff2e;0xa865b3535a14974c7388ac5c2d8f7ab8;0x5bce3f069b1d0eda8fd2e37fac1812fe;0x8f205a49bb6b1455ce0846f7bce73c2d;0x046364a383dae42fcf68e819a0c9ef32;0xa6102dc5bcd40acb6704239a5e921ef7;0x72fe488a9ca2104426de86124e6d3024;0xbafad22ab397f3064fdffed5b8a8d669;0x30d1f598dbf13a070da56aac8c254e9b;0x4c5a2384a193b7c43ff76378b1551af0;0x82edef37ad11c25f1faa874bb7dc8596;0x6a77d3c6103b0da6c16db344089e1788;0x88fb1502c80bbbf7c44ee09464080eeb;0x3c7459be9d5cd5769f1d9187afbdbccd;0x6e14b76593e1e9890e055b5da857f8ba;0x0b7ee36d35cd40d398fe5d48fb77c090;0x9e0710d8a2523b9237715a0451e64d08;0x68a7e176b0567f504759c7a9581b8191;0x67ba66b80641dbac10cf72f803a5ae33;0xc5c92fde394f3548b8a3b97bfdfe5ff6;0x744d1e99bf15869d6f821ae6be21490f;0x40ff8fa2e73e58b5ad4f985392cde8a6;0x0ca5ac2646adef7192b8fb2b2398f256;0xe787bb3f0b3d6b058951815ee4fcbdbc;0x9dbf3b3052e8701ff25f147e29c090fc;0x90728e4e4492a61523fdd5c222fb2947;0x7a38800f59d51b1a7b0e9520cd3c2d40;0x3ac70fadbeeb43afd6410d735ff1c5e6;0x35da886308fce75381d7b822044fea44;0x34b2913b582bde28c2cd82b52ceca1a9;0x9f6f0980f28502e9746b6093794506e5;0xb7376754a5ed250c9e7d3f69b3936fd2;0xf8d56f38f4c4d94564a4126b7ae0a8d6;0x4fe2086c5129fc49fad92d02c973c704;0x6b1fca9e40ec34dd827789d3203d5c65;0x8385f66ffdc6fb245cb0bddc9f7fce7b;0x5fad5ba518c7eaf540ba0b660cd1fdcc;0xa778349dec0333b0241e190d7631551a;0x1e3acd5faf2e8b3baeefa9a2b6bf5e87;0x104f53c949ee16bcba632664c5a23ac8;0xc37a79cd1af8a391f1ff258f0db226dd;0x78e8b2bff9b869ecfd3ae1cd9db9bb59;0x2d53132f8465fab166648d7442bccde8;0x77f535714fafcd10aaac549cc60794fb;0xe3e4df9c88e78f2a463969474435528e;0x803ddd870d7cb0a9999ef3a6e759138f];
   [0xa2c881e23bb3c265c52388a84ba007fc;0x7e5eba731f4c948f72c453b467fde6ee;0x65cf9b0b79d83cc12afea196daeb16dd;0x09ce1f2822cdd93a8916ef1e6bb35011;0xb959a09a5d276a2b9d197a8af6b6f7cf;0xaa23a28fdcda7c18a10806f592b9dd6e;0x3c4019176209e36fcd256b9fc7a22e31;0x92f74b4f2c06c0a85ed92aa5d8f69e16;0x39f1d5853578dbf712ec4d13f8e5c9fb;0xf0c3645c4b240a7fb2946f399acdb8c4;0xcb78c95337d71f06b902e0acc5bfa6fa;0xfef6cf6c77132553fd31642d69aed8da;0xe0d6228646f6b5857ac2b083ebffcf23;0x024a788a498bce8e197ac286a797d7c5;0x4e6170de08f99642e93ef1b9f4ab7f04;0x4af580099a2cc99ddbcab6767946124d;0xe567ee1411878d1da50b960fd4b828e9;0x3f2f5dd8ee264aa63962c85ad29f7377;0x706b1143237bbba33d6158a0949e86f0;0x0c7fd3ba75bce1a256dfc99254f4b7db;0xfa623fbbe5c67a8ccfc523e2e443b593;0xc0fcaef15c9108b2296ecd34099b212e;0x4171e7abf16ade294ba69beeb5629599;0xa1a7c52db79c6bac31642b6d5e9d5aba;0x607e57992ea90459f537871ae5acf117;0xa7794d706cc2fafd1aeaae2474e7e036;0x82e20d9521d47f52968ff51fa9c4e9f1;0x532ed9fbb533af5d9a8a86d263c735bb;0xb5267320289b8b89cbc6b318a2424014;0x9e8898f559ba210a0806e3378c0229cd;0x9663bb98bed39f776c2d6d6a551bf35f;0x4c2b0854417258ccf044333f533ca8c1;0x1e20edea31e590d687f3d4ae825117f9;0x6785e3813053f24f338463107d7cc118;0xe3b96649cad91c4c8e851346fec29265;0x2a8bd790b485cdc42efd316c9ceae35a;0xacfd2ad20784ed498a8683bcb8c367e2;0x433b9f21b8e110a752dc596812f5425c;0x8cd7a6a51de3507ed92afe0b5aa789ef;0xc7071ae9426bfea4efdd293e914b1121;0x26f4042ac1392c667822f8fec81e5481;0x29e4935f38aa640ddaba92a989d7be1c;0x1c6a9560786e5e589e89162825c6c03c;0x4d0e341184d63f8b1d79527ce1962242;0x9de7dc3ad59588c3fc4140f2993f748b;0xf2891cd602afc4f1abeeadbf3d5a6f01;0x210fb032dfc3da70be911cf450ce648e;0x6d24b8669eb182bc4ed52fcb03f2cc4f;0xbce86c080a5652b342d05c06c9f11005;0x9a1c6822cb6f7ed53af2a4f801ef4484;0x27d1386f049d4b21951f99bd7ab4de02;0x1481b60d9f07e025faa29875fcdf1aae;0x5e743604052b29b821682e03859908e3;0xe442d251d423ea5a4836f74c6612a26a;0xd386ace4dd6c1e81157fb14b6d940b8f;0xe1f31ec38352d2c297ffd1c0595545a0;0x69b048b10c64dd637c2168048e1fa106;0x499ac4c6160360542f8d15b36c7b4f0b;0xab069eca197e1b5f4c3567b6201357ed;0xb3f8fb7df3c51ad8e04836518838fa98;0xa3edbda7fe17a522281ee9ebf90a8d7f;0x0b8467a26b4617b4906c2d98cc2487d4;0x90bd33c5658d0e2647a3e8237f6149d3;0xfcbcb7e63e98ebdde44ba6abce390f1f;0xc2b6d67b151ac63c30140fb2ae0cf6eb;0x80a8751f685fb1dc8ff537990e533e34;0xe72d969e580c4393bc715489732fff2c;0x63111356a286ad90017024dff091ac51;0x303fcaad17b502cd9bfaa20d935699ea;0x2260f4fd53ec73b94ad6bf3145f339c8;0xf61dec01907a9b2e991aea70b0b70248;0xa869da059551b296b872c473352e0aab;0x57ba292c27e6f082a87ec11dee2a58f2;0x8e9dde2f54689ef0c0503c8dfd305e2a;0xc393ea3ed0bea17bdd296ef11ca67c68;0xc62226ac87cf99e302e0487d23e19ba2;0x50419d34391c06946ecd251776fa68fd;0x75daddd1740a833be2a87e2cabd9613a;0x4bd0bc4c5f88aeda36f7d735cbec98ce;0x6c0184235b15e5fba3e84e88b15846cc;0xa65c7135a9669dbaf7d7cf67c64d6ab5;0xa41609bfe0ed5334eead0de161dabd70;0xf572a8ce1c5532e76d5d49b5a58a5f0e;0xf8284731ac4db402d6bfe16443d46256;0x9cc2e07f1031ef84117c21b12b95fe08;0xd2a390a118c879c6f842d008df3e810c;0xcda6410eec898e57928c65e5efc51c76;0xdc963b9124ff56eab7e7db1c2c5de112;0x1d4fa925bdca391f73b4776b976c4abf;0x83c731d0e47018157bb2945c1b6e6372;0x2e1f27472650921b1c0976a311078e13;0xf1e658198e806d385fa90e7a28673247;0xfd998ba3fb3c8c9a0976c7e87c93859c;0x818d495aadfbd69b62c856dabcf9b4b7;0xb1b283f7ba4ed456f932f4d72faf2d5d;0x4f444c9bcd5df105040390fa4601f587;0x47af6ff62a344f7860281ea79f182f15;0x137a021581fd16333c117c7f640f2aa1;0x468a53b3ef90283f8d157fe42db2a596;0x5bc5fa96525a1120fea1088fbadeef29;0xfb4703fe20621dcb22f842a156e93f10;0xed8ccd79f6ee3360c12018520da1f27b;0x9429c312f75851f97557afecf28c249a;0x259b40e54d1685af8c655b3bdd2309c7;0xa53335fa2549347303906ca2d37037f3;0xddb307d4e15b31ad5adaba5f9ef76b91;0x38d4e9c0f0dcbcb0ffd12c504a4f4378;0x58aabe59de75b8e90ae6ab4aafe3b26f;0x0f109775f993486ba2986a5741c9ea9d;0xda48b3ccffa1c7bb9c695e5506275b9e;0x3d652552a7ad842820180adc7508a4b2;0xe83d01eba19f0bf81ee93ede32e615b1;0xe9183dae643b6cbff3d45f9d804c9f32;0x18fe65b7eabb0187ac7d51e7a82bad75;0x950cff5732fc36be986aceaf4026ae19;0xeee389b67ac19aa93567bb97189caf3d;0x7790a55b3d814db5fbd2bcaa0c4eb6ff;0x722169c96af0752d241b9a2633095135;0x6f6ec0ecd73a4c3257afed4da4651b8a;0x5164a171fcb861d383f04454c450e27e;0x7f7b8636dae8f3c89ff932f7d5576c6d;0xdff97f5ea8d0ff2343a078d93960bc54;0xd7125c334fb9415e278bf684e07966c6;0xd47d18fcc396e897d3cc5541f5443b80;0x6bfa303b45ef13ed655baa82298876c3;0x3a9e914ab957723ee6abeed6edd894bd;0x202a8c771a67bd3753ac7db7e264ee0d;0x0aa15be7aee270f37d514cdb7e8e0d57;0x421ea3647d4577e0bfe1382ba05fc8df;0xcc837d4b292de9107fb104a65d6f96f5;0x7bef76e1483dac17ad0d753858ba0124;0x8fb8e26a91ccf9b72d6d5dce4f9ad4a9;0x3bbbad0f7cf315790b968f955f721e3e;0x7d31febc93633d468683f07172c0bba8;0xbf8728c78679fb7ab697ffc3dccc4d43;0xd0e9e82b5143b748e138128e78a956c9;0xdedc431b6d749864ae9d199a8bca36d7;0xca5df516f2737841543f81ef77152c79;0x2c555fcd6fdb5c950573b425b69059d6;0x19db59f22f1f66c0414030a41a8127f6;0x76b5991ef8252af216efdde9bee43c7c;0x125f3e5044597174d12c1d3cd6a5a022;0x74ffe194b1aee47c0f951f6f1973ebb9;0xd55824b906328fd03ef1340247eeb103;0x8b2c12bd0319a6681f991a01c277b9e0;0x07fbb4181efaf616c6b3e40a98d0300f;0x598f821c1bd1dfaee7dbca091d4938ec;0xb097bfb27feab311140f95949d05a7de;0x1f05d1aff441f7916aceb5ed30fb9d7a;0x615b6bdceb0d631e180ae65957067b94;0x1ab41d3da330cf09b50793610fbc7ab0;0xc8178d9cbbf8b6cf4d454369d082fbbc;0x974687dd7b77f83081100c29e7b179dc;0x17eef2c2132849ec0ee53bb0e9e247e8;0xa94ce64050f5d5d1554fa53087848028;0x91980f80a0296961aa9e8960cdcbc350;0x9fada4b09c1e464de53b82743ea8a34e;0x1b9121786694a84e583af222bd16f033;0xbb13d81014aca4a58463b80c5121200a;0xd1ccd46e94e7d00f0c0573cdca03dc4a;0x7aca4aa48d99cb504030147bea108ba7;0xb4034f65ed3fecce26fbd25b10e8ca97;0x5f510a41c08f4effcc554f4037338260;0x714e2d06e6dfdce4d05c39e326340c73;0x0e35ab303c372f2c4fa50b14f363601e;0x00000000000000000000000000000000;0x7880322ec41205de594ad6fd4d875c62;0x24be7ca088b2e2e861583a786f898344;0x4054dbee34ceb96ea69bfaad07c81f1a;0x8676fd42b301208da47bb2d0242984b8;0x520be5be7097c81a77b7e791d16dbf38;0xf3ac2093c70ba3b646d3ccfc8ff0e582;0x11307a9fc876d8bd256bbef9c398fd64;0x28c1af1afd0e034a3787f3ea3b7d349f;0x5c3e4e8e4ca0e7363812ec85220edf26;0x985610a882e4b05b2388667ea6789341;0xc1d992b499356ff5c453ac77bb31abad;0xd63760768a1d2619cab697c752d3ec45;0x036f44cf8c2fa9c9f447a3c5153d5d46;0x08eb236de769be7d642b8e5dd919da92;0xaeb752584e0f23c793fc413a1f54b027;0x64eaa74ebc7c5b86c7c3c0d568419c5e;0x2d706388aa7f3bd2e84ed566043ad355;0x3275b2275e3ecc438280608b34c14e2f;0x06de885ddb5e91512b8e85492a7aba8c;0x34ab3a7a85605d12a90ee5c21ebbf4a3;0x5d1b72cb89048071d52f8dc690a455a5;0x843c85c8fa8aee03bd01705683be537d;0x311af6e8d211658a76c7c34e21fc1369;0xf90d7b7469e9d3453b828027f17ee8d5;0x93d2770ae9a2a7efb3e44be66a5c1495;0x8753c10776a547ca4946d39396830e3b;0x9b3954670ecb1992d7cfc5bbb345ce07;0x0d5aefffb01886e5bbe2a8d1e65e3d58;0xcfec3984a50240d98bf6a7634852cbb3;0x6adf0c7e804b74aa8866cbc19b22fc40;0xbdcd504dcff235f4afed3d457b5b9a86;0x33508e629b9aab046fbd01c8866bc4ac;0xdb6d8f893a05a0fc71543f16b48dd11d;0xeb5245242db0a231eaae9d1b27db48f7;0xcec905c160a6279e66cbc620faf84130;0x55f051a66e6d3e0cb104039b49bd8f37;0x16cbce87d68c2eabe3d85af35b48cd6b;0xc54d62630be0302af6a7ebb836dcc6e4;0x48bff883d3a70713c2b074f0ded1c588;0x2baeebd57121aa83c3c0502f2e4069d9;0x101546da0dd2bffac856dfba713277e7;0xba36e455d108c3e2695ed94fe38baa89;0x79a50e6b01b66299b477b7beff2dd6e1;0xb2ddc73836617d9f0d7557123a92701b;0x01253c45c5a46747ed3d6143b2aa8a83;0x0494f0d792d55fdf32f447cf8ded6d49;0xb87c9cdf98830d6c70241bc9441c7d4c;0xc932b1d97e5cd188a078222a6228713f;0xeca9f13c334a54272c1d7911bf0b78f8;0x8519b98d3f2e8944503c11153114d9fe;0xf457948bd9f155a0806028f61720d58d;0x44c02b39a61be6b1946fbd628a257253;0x5ae0c6d397fe7667139c69cc087465aa;0x2f3a1b02e3f4f55cf13417e0a3ad0490;0x05b1cc9257713898dfc9268c3f47e7ca;0xd927f703738e6e72682efd90131a06d8;0x689574f4c9c0ba24911c09473cb52b85;0xadd81697c2208a0e67bbe2ff0a69ed61;0x358e063f40c43a5544338481ac117e20;0x569f1569e24297c54543a05e5c80d271;0xc4685e26ce44576d1b9a8afb84764c67;0xaf926e1d8bab44807ec12079adfe3aa4;0x15a48a485aa38762179ff9364e75902d;0x7c14c2f956c75a016bbe9132c06a312b;0x6e4bfca9129e2b75ba928c0e16cf9109;0xd802cb46b62a093585139cd3a1b08c5b;0xf738d04455defc6974278b33021d88cb;0x66a0dfc4f5f79508deb90253cfd64b9b;0x89666a374a9268e606e3d88765e06e25;0x45e5177c63bf81f67952dc21388ff8d0;0xefc6b5f3bf65fdeed85adad4aa3625be;0x37c47eb5094ff4db5d4946070b86a9e5;0x8df29ae0d847373934179f48e80d036c;0xb64937efa4b422403f8110ddb77f1d52;0xffd3f329b2b74214100c056edb045259;0x884356728f360fa1ebdeb9c4d74ae4a6;0xea777961e814c5760793fc589571c274;0x62342f136722cad7ec4d459c423b26d2;0xe29c5a0c0f7d7b0b63b872054c6818e6;0x3e0a619d2b822de1d45fa9196035f9f4;0x54d56de3abc9594b5c3962d8fb1705b4;0xbea2148243dd9c3d5baa9e806e66c7c0;0xb76c0baa61104507d2bc719e05d597d1;0x36e142f0cceb939cb0742744b92c2366;0xe608aadb9da824d4514c35cac18575af;0x99732ced4740d71cceb5073d14d219c2;0xa082f96872380cebdc594a2eec37d039;0x2345c8b8964814fea7ebde72f759b34b;0x8a092ef8c6bdc12ff2a47b4270dd3363;0x7304558caf54126ac926fb6581a3dbb6];
   [0x5e591d8d98fb33547cd4a41bb3820eb2;0x9076be36c108565af44038f84c990fec;0xb8ae1f395bcb044b0197344ed8522c9f;0x1848de0576418f0f534d04d3cdf8a090;0x7681bc82023861458903a8ad27492dc1;0xc4191ac89eb3909b24d19f2fda597932;0x0d23f7db111f5fae67f85d9609c85c46;0x841a0fd08c887fb36fca3ea3061dff34;0xc20bcc586232c3e840539e6b78675116;0x348c5aea447cbffd5f66b71d24a6b3db;0x3197e732c65c245609a5577bd7878fed;0x24fcceeca102f4f73d100e3e13b7733b;0xc30c546048ec3aa0ef6cc175f6d35d18;0xc7107180e012584316907e0d8b466d20;0x4a35ac6bd57b1abde75ea240f906fe6a;0x07154ea8d65faa3bcbbd5e5a2c8a242a;0x0c246fe33bc1a6e6c8c70288877c5048;0x483b5f1b81042b2d7a201c7c26ade676;0x80062a3024761d50963681db7b88cf0c;0xd760e586056c134974e6c72ebc57adc0;0x69dc2c2fa226447111f3f224c63ba97b;0xeecf48b7500ff31a4c782da59139425d;0xd84de12d400c7d778e6024846a34e99a;0x1b41b54d08e047d7610ce5f19ce7b482;0x778624ba28e6980d263cf7b3a9fd21cf;0x9171260eebd6af125b7f67e6c22d03e2;0x739a015a8018faeedfc048cbd46811f7;0xe8dd9e27ac8ea06928fa2ce133076a79;0xa1e159040754720cfde56f839b1e8001;0x537aea5689e46cfa1b2cf98dba4a52f4;0xc93aed138faccf354329c2b9d3912574;0x8d25ddeb356942fef1cedc4d7240934a;0xe7f09a8ce9eece57d27ccf4be5642e23;0x7fbe6eb9bbd95c0817074a43531441bf;0x8614fca0d8f74e23f2b4809fd9b6e728;0x70936a12feb93236ed81a9e9857705e5;0x4e29898b7d85785e1ea21d388493ce52;0x1f5d90ada01e253498f05a89e17284ba;0x63ea955c6566b1e4bdb6f1e8e379d117;0xe6f702b4c330371f7d4390556bd0222d;0xa7f38f94fbd5217f99676ec73920a825;0x358bc2d26ea246b5f059e803aa12bfd5;0x20e0eb0c09fc9614c4ecb1466e224303;0x0f2d04ab45606e3efa86e3aad663445a;0x1662429619ff187906f4b867952fe8c4;0xf39c2b6aa46ee7be49f6c910afe0defb;0xafcbc59768eae57aa85cd337c3c9c855;0x22ee187c5d83a78459920f7ab1895b1f;0xb9a987017115fd03aea86b5056e62091;0x1e5a08958ac0dc7c37cf05976fc688b4;0x25fb56d48bdc0dbf922f51209d037f35;0xbaa0ec490fb435db9ce98a7207f93483;0xbdb5a2e1d9eb9fe05754d4282b7310a9;0x8e2cb6a34bc88a26c38f3d6f235f8758;0x5c57eefdcc8402c4e1aa1a276c2916ae;0x41048d2038e51660e424fe9252f08a08;0x6fcefabf5ea717027571f3606405815f;0x420de6684644deb8d6651fb003ef9e1a;0x4611c388eebabc5b2f99a0c87e7aae22;0x2bd1ca47e4629ac9c796ed94c5d43761;0xdc51c4cde8f21f94779c9bfc17a1d9a2;0xdf58af859653d74c45dd7ade46becdb0;0x430a7e506c9a27f0795a40ae8d5b9214;0xe3ecbf6c4110acb42b80703398f11e1b;0x29df3937b01dab595ae853a81a7f2f7d;0xb48a70da600aa2adc95036c65f2e7cd7;0xcb341e63dbd3fea5de577c850c3a3d68;0x329e8c7ab8fdec8e3be4b65986989bff;0xda43125d14734ce7131e9ab8b59ff186;0xead36d57f8f191f9b58492ddecac7265;0xbebcc9a9a74a57386515350a7a6c04bb;0x03096b487ea1c8d83241e122511f1412;0xa5fd7ce4afaa10ef0419d0fbe68bb039;0xa4fae4dc8574e9a7ab268fe5683fbc37;0xabd7e077c014879951a06c4fbe5cf86d;0x64ffdbf4b3391bdf760bafb2cff3f53d;0xadc536e73c95d4ea35226d0b1c62d049;0x4f2e11b3575b8116b19d42260a27c25c;0x851d97e8a65686fbc0f561bd88a9f33a;0xa0e6c13c2d8a8b4452da309d15aa8c0f;0x1379ff4e9bdf83d250375801660ed4f2;0xd4698ece7bcddb9146a7260ced48b9d2;0xfba46169375123bb78cd74e05509be8b;0xaecc5daf42341c3207638c294d7dc45b;0x946a9bd669f634b90dbc8780310c3fd4;0xde5f37bdbc8d2e04eae225c0c80ac1be;0xbba77471256acc9333d6d56c894d388d;0xce2fa3bb59f3650e88949ce3ff1b015e;0xa2e8324c79f5bad4cfa48ea1ca019413;0xf192d81af011d62ed488772c704bc6e7;0x3db388d1fd9d82b0c16255f350fbdfa5;0xb68483aa3475933d542e88fa808564cb;0x61e4662c3119807420c84fd43cd2c90b;0x3682a99a10038e6dc2180921fb0dabc7;0xecc1bbc70470c28ad10693994e925a41;0xc83d752ba572367dec169da75d25297a;0x527d726ea33a95b2b413a69334fe5efa;0xb298a64a9c8bf1deadd23782fd1054f3;0xd075ab2ed333b972bf5b997490dd89ea;0x729d9962aac603a670ff17d55adc1df9;0xebd4f56fd22f68b11abbcdc362187e6b;0x966468a63d89052990c239bceea727c8;0x0e2a9c936fbe977655b9bcb458d74854;0xe2eb27546bce55fc84bf2f2d16451215;0x5661578e0bc4f7514def19eb496b6ec2;0x4c277afb29fa49ce83dca3045b38d64e;0x40031518123bef284b1ba18cdc448606;0x378531a23add77256d27563f75b9a7c9;0x92784d46957767ca693e86c4933217f0;0x441f30f8bac58dcbb2e71ef4a1d1b63e;0x8f2b2e9b6116736e6cb06271adeb8b56;0x594c53254ea4996fb769fa419f082a98;0xdb448a653eadb5afbc21c5a63b2bfd88;0x6dc009cf0ad82692e80f4d5cbbae9943;0x8c2245d31fb7bbb65ef18353fcf49f44;0xd37cc066ad9271aa8d1a7856c1c29df8;0x883e6033b749d955a70d3c2b8161af7c;0x47165bb0c464451380a6ffd6f0cea22c;0xe5fe69fcbd91ffc74f0271773acf363f;0x2fcdefa74c9cf82a3e6a52ecb8410759;0x127e6776b1017a9aff08071fe8bad8fc;0x8b370b7bc9e8118d954cdd09d07ebb6e;0x11770c3ecfa0b242cd49e63db9a5ccee;0x546fa4fe5fbbc6c1d091a7d796c076de;0xa8de8b3fbeb54f4163e18d6def43ec7f;0x87136498f229b76b5d8bdf815702eb26;0x2dc31cd718e3c9baa314ecd067ea1f45;0x5d5076c5e65afb8c4e954539e29d1aa0;0x9d5549edd01709f493b8656e455153aa;0x39afad315563e053389eea8b2d6eef9d;0x5f5e85b5b225ca1cd3ebfb053d3602bc;0x26f23d9cf57dc567a06eb002cc1c6b27;0x051bbdd882209bab56c3e066f3213c36;0xd56e16f6511322d9e998791263fcb5dc;0xfcb12fc1e10e8980b3702aba79839aa1;0x194f463d5c9f7647fc725bcd434cac9e;0x093fd23bb9e13d4d9e04e2ee745d6c7e;0xb39f3e72b655089602ed689c73a458fd;0xfaa3f9511d8fdaf3d7f22bfedbbdb285;0xefc8d08f7ad10a52e34772bb1f8d4e53;0x0a36b973c740f595ac4503cc2542786c;0x30907f0aec82dd1ea69a0865593383e3;0xcd26c8f32752add6bad57dc1ae04154c;0xd6677dbe2fb2ea01dbd9983032e3a1ce;0x6bd2df5ff65975e18c8d4c181990b167;0x08384a03933fc405313bbdf0fae96070;0xb58de8e24ad45be5666f69d8d19a70d9;0x6ec962877479ee4ada4eac7eeab18d51;0x65f843cc99e7e297d934f0ac4147f933;0xf58efdfa58efb4cd2d74c8540ddef6df;0xaad0784feaca7ed1fe9f335130e8f463;0x748f4ff2564750d5147d1691f8e235dd;0x4b323453ffa5e3f54861fd5e77b2f264;0xffb844899faf41588131cb98289c8eb3;0x8101b2080ea8e4183909dec5f53cc302;0xc102a7101c930b3072127f4929784504;0xd1723316f9ed403a1064c66a1e6985e4;0x28d8a10f9ac35211f5d70cb694cb2373;0xb191cd02e22a39069f93d6a0ac0f40e1;0x9b479f7d2c965a87f73a642ae76f7b8e;0xdd565cf5c22ce6dcd8a3c4e29915d5ac;0x23e98044775d5eccf6ad50643f3d5711;0x3fbd7ba1a9e2b3205c1cebcf8f50c7b9;0x020ef370547f31909d7ebe3cdfab181c;0x10709406e57e4b0a6276b9233711c0e0;0x00000000000000000000000000000000;0x1a462d75223ebe9fce33baef1253b88c;0x60e3fe141bc7793c8ff710cab266c505;0x5a45386d300551b785281b63ce173e8a;0x3ebae399833c4a68f323b4d101e4cbb7;0x6ad54767dc878ca923b213069724bd69;0x7194f22ad467cb7e42bef6f70bc309eb;0x7588d7ca7c99a99dbb42498f765639d3;0xb7831b921eab6a75fb11d7e40e3168c5;0x7aa5d36139f9c7a341c4aa25a0357d89;0xd94a79156ad2843f215f7b9ae480e594;0x6cc791f72006dfda47301242351a954d;0x937fd57ebfa99e82c601d9da1d861bfe;0x4518a8c0901b74831dd841ea2f65ba30;0x9a4007450648a3cf58053b3469db7780;0x8939f80b9d97201d083263350fd5a372;0x3aa6c6792bc2288b0adf0ba97c71fb8f;0x78ab20116d86f633dcba14197f9e6595;0x1d5363ddf46114a4058ee4b53ed99ca6;0x8a309343e336e8c53a7382175ecab760;0x9763f09e1757fc613ffd66a260132bc6;0xf8ad0a2149f0eb634a8c95c20416aa99;0xf9aa9219632e122be5b3cadc8aa2a697;0x584bcb1d647a60271856a55f11bc2696;0x2cc484ef323d30f20c2bb3cee95e134b;0x0612d690fc81537364820144a23e2824;0xbcb23ad9f33566a8f86b8b36a5c71ca7;0x9c52d1d5fac9f0bc3c873a70cbe55fa4;0x55683cc675653f897faef8c918747ad0;0x7cb705f1c57894d02546ab61020b55ad;0x2ad6527fcebc638168a9b28a4b603b6f;0x3ba15e41011cd1c3a5e054b7f2c5f781;0x9f5bba9d846838640ec6db529afa4bb6;0xc617e9b8cacca10bb9af211305f2612e;0x1c54fbe5debfedecaab1bbabb06d90a8;0xfebfdcb1b571b8102e0e9486a62882bd;0x62ed0d644fb848ac1289aef66dcddd19;0x7db09dc9efa66d988a79f47f8cbf59a3;0x21e7733423226f5c6bd3ee58e0964f0d;0xc0053f28364df278dd2d2057a7cc490a;0xf29bb3528eb01ef6e6c9960e2154d2f5;0xf7800e8a0c90855db00a7668d275eec3;0x33991442922315c694dbe947082c97f1;0x984ef4355237925fc57b8508b6706f9c;0xa9d91307946bb609ccded27361f7e071;0x8208d94070092cc00b483fe7a423d710;0x4d20e2c30324b0862ce3fc1ad58cda40;0xf48965c272314d85824b974a836afad1;0xf68796b2264e7c151f3529765cc1e2cd;0x146cb1e64d8029e99b8a065b4a84f0d8;0x7ba24b5913273eebeefbf53b2e817187;0x79acb82947580f7b73854b07f12a699b;0x1765daae3321e131a9cbe7791b9be4ca;0xf0954022dacf2f667bb72832feffcae9;0xbfbb51918d94ae70ca2a6a14f4d808b5;0xcf283b83732d9c4627abc3fd71af0d50;0x010798382adef948af3f5f1e8eb40c0e;0xedc623ff2eae3bc27e39cc87c026564f;0xcc2150cb0d8c549e15ea22df20b01942;0x156b29de675ed0a134b55945c430fcd6;0x27f5a5a4dfa33c2f0f51ef1c42a86729;0xa3efaa74532b439c609bd1bf44b5981d;0x0b31214bed9e0cdd037a5cd2abf67462;0x38a835097fbd191b97a1b595a3dae393;0x5766cfb6211a0e19e2d046f5c7df62cc;0x67f6b0bccd98d307444a4e909eece12f;0x830f41785ad7d588a47760f92a97db1e;0x3cb410e9d7437bf86e5d0aedde4fd3ab;0xfdb6b7f9cbd070c81c4f75a4f73796af;0xacc2aedf164b2da29a1d321592d6dc47;0x956d03ee4328cdf1a283d89ebfb833da;0x51741926dd9b5d6a865247b165e14ae8;0xd27b585e874c88e2222527484f7691f6;0xe1e24c1c156f9d24b6fece0f475a0607;0xe4f9f1c4974f068fe03d2e69b47b3a31;0xa6f417acd10bd837365831d9b794a42b;0x2eca779f6642016291550df236f50b57;0x9e5c22a5aeb6c12ca1f9844c144e47b8;0xb096553ac8f4c04e30ac89be22bb4cef;0x041c25e0a8fe62e3f9fcbf787d953038;0xca33865bf10d07ed7168239b828e3166;0xe0e5d4243fb1646c19c19111c9ee0a09;0x7eb9f6819107a540b838155ddda04db1;0x66f12884e7462a4feb75118e1058ed21;0x5073811ef745a422296d18afeb5546e6;0x493cc723abdad265d51f4362a819ea78;0x5b42a0551adba8ff2a17447d40a33284;0x99496c0d78e96b176a44da1638c46392;0x68dbb41788f8bd39beccad3a488fa575;0xe9da061f8650592187c573ffbdb36677;0xc51e82f0b46d69d38beec03154ed753c];
   [0xd74812a3be2925d910ecaedf6a2d01fc;0x634411de600e826c927cf22a20cba0ee;0x5e1374223d0daf72fa27c723aad247dd;0xaa8c23548a011b0a99881307c7b65d11;0xea1f775fe32a08c778b79bd6e034e6cf;0x2a698b4258573d5398f6c0668971e86e;0x2916e473848644757a4bfe147c794f31;0x9c8ec2a0afee7563a6b009cf65263216;0xe14af3579bc64bb02fd4b417c8bd6efb;0xa458160f555dd3172bef7e503327ffc4;0xeb8b52f116659e6426dc30f8b38d3afa;0x681195d618e2c11bc51fddeb084228da;0x9d1ae70e5aa1e3c0f8dba2e1369fee23;0xae99b7a9d8fe06c322e7fabf4817abc5;0x2882c1dd71c9d2d62420553a2fc09304;0xb7736c4c02f6de93602d6287bfee064d;0x5546f02a45e1ec05ad44e8e2825bcfe9;0xd022e96f30074136493e791510845077;0xaf0d92072db190607c8c51911bae77f0;0x62d03470954114cfcc17590473727cdb;0xf7e038476bddcd5e8112ea56986cbd93;0xef9ec60c449a83ad9db3d9403c2ccc2e;0xb366f8b15009c35adb428b3f304ff099;0x2e7c1fbf0aa8209a239929de06d01eba;0x964f6306224da0b7afb88d201e166617;0x1f140587a1692a1c4573e4dcdee92036;0xa5cc33a1a01245b47584d57e609e23f1;0x24bdbe19870bf54e2a91ad317de04abb;0x88cf432f766b1c08b4a0c2d293469a14;0xfe5ef6d03aaf61ac6aa750cb16544ecd;0x037f6f31dcd17926e2bd3e72f508a75f;0x861b7674a937d41506c7af8567d738c1;0xf50b72d8424322db3dc47f0a3eddc6f9;0xf08ac38be5f3a9b1d8c03d9ce2c5ec18;0x642eea12ee20e683cbae25e05a62f165;0x213c0f4a20bb7e24cf95efa7a1f8605a;0x1b01917af39637d5fe1c0d645148d6e2;0x1dff4f1888f7c599f9a5718078585b5c;0x6985b078edad57b89b7476c55bfbf4ef;0x895b668183248aabeacb69fcc0ff4621;0x43ec3b3ab5fa6aeb0382b6a3d28a1c81;0xd8080256943a7b67fce068a6cd057f1c;0x5b92c5719abd24181f2385b576ca6d3c;0xd1b6ccc1c548d7951755d23b433d8c42;0x076afbcc8e2e64ef59d2d7ca7aa9518b;0x0ac1a1a68da3d5d4090884ef7b305401;0x25299bb7724463ed74fa061f2e59968e;0xa332edc3db73b7f8723da99a498eae4f;0x2243607bfc6a07022d28d1d554f0c705;0x61af5b4149906de92eaa6776867adb84;0x1441818fd985696b1210cb1df660a802;0xa6b35c907cc33c929739eb0c959684ae;0x11c030dc7e35e201f714898b2a7882e3;0x02eb4a9f299eef85bcd6955ca6b17b6a;0x2fe83a11ffe7b6397df282f05569c28f;0xcab75dbb36dee040e949df5f12755aa0;0x3cc34052a84cbbbd36309e27d9a03b06;0x4e476150b677dbd05358e586d313190b;0x7dc431f734283ed38964bdd8ad9b5ced;0xb9a75917ddaa168ed24a0fd04b7fa498;0x80e5a816d2562659017ed3614ec7b57f;0x041594fd52ff1dc9bb6fe9b88fa1f6d4;0x32177509771073a08457f3702d3199d3;0xc688227fc01cc7d8e7f827544055831f;0x410771a59c64856ebf5423ff743b67eb;0x0b55840878ec437757632fc128898834;0xfbdf47839d1feac68fa3125dca4c642c;0x6f7b6e1a96cca5f49ccd0a2172eb7951;0x4bc6d00311c750bab65ca7100f0b33ea;0xdc1d96abc6c566ae478f811e42a489c8;0x95300c37fe9cd9914d05b352eb1ec148;0x84f03ceb80a93b90ba113ad9c16643ab;0xbb4c1388f434f90b6e9c9a8cedcedff2;0xc71c07d13553517bb9938c7a13ec5f2a;0x16aacb10f01b86eeaec65e4150d1d368;0xdef6dc34ef5b892bfb591442e415f2a2;0xdd89b305338af00d19e42a30111d55fd;0x6751852332f19fa529131b92af6a563a;0xe0ded6f96e89dd1371bf1f399b04b2ce;0xf49f5776b70cb47863afd4246d641acc;0x48b9bf32cd16299c54e19962fa0394b5;0xe620089b15e82f5f760663ddb2143f70;0x6c04012b4a1ddcd27e70345387e3de0e;0x59798feeb323cb9da3f510e9d07b1656;0x50c74179e251676f4840aa745e43e508;0x784580a49398b5b96c60ff4e7183760c;0xdae348c9bda494e24036fdfa6bb40476;0xb40c037dde27a7b582905cf54ae6a112;0x0c3f7fc4f6c227980eb1f80b5220d9bf;0xf2618914cc6d46346416a8c044749772;0xbecda2db538472618b98d81a31d6f513;0xf3f5acba3922d0973a7d03ee17cd4b47;0x912598caac63c458f66a5aea64bf379c;0x5cf83ebd149340f746f1527f0c633cb7;0x173eeebe0554104df0adf56f03680f5d;0x7f2f7b681db6d15635b228840b2a2787;0x820ee289fbc8c9dcbda8463de876ce15;0xc076fc1dbb7d3594e0415bb069450ea1;0xd5a3583c97b7ca5cac3a3b83cc9c7a96;0xd99c27f86175edc4a28bc3889ebca329;0xa04d82f207a2cede908097e8bc860910;0xa86769cba39ff48f255e865b6107267b;0xade6d898042f7fe5c05ac4cdbd1f0c9a;0xbad83626017b6fa830f731a2be7703c7;0xb18db22e79972cdf67941e6396fe8bf3;0xe3a1b9c8b258a4359302214b6e0c1591;0xb6e749e2f7b948303e46c9a9ec57da78;0x20a82ae4d5f4e88791fe4489f241bc6f;0x9be4396c21c0118cff62de051f8f639d;0x8564194575e6ad33e47a91f792df9f9e;0x7ebb5ec6e8f947f56bd983aa5893fbb2;0x603b7eefbcdffb4a70c1cc58d5c307b1;0x3796c45ad0a0f8ca6153b1e6f129b332;0xc46368e0e982285d5b2eb208e6e4f875;0xfa4b622d68507c65d1c8b97399f5b819;0x515364d7171ef1cc162b015a0dfa393d;0xc9c8328aea0f99660bf4e12de77dfdff;0x019425aef54f96a35e6bab2e53b9dc35;0x0dab5a6a038db13b50da53250199058a;0x8a2409b05ff5f38d0876578e35f7e17e;0x34e9ab6b0c7181ec83ee8f940421146d;0x4d380e616aa6a2f6b1e5dbf4261bbe54;0xb01997808cd8ba7c39ffb54dc54757c6;0x492d9a9c3859bf3f0a8a324ca9ba4880;0x925af7fb70b2bd7e14d7649891b790c3;0x187efe4b2f474ef31ca13316a44071bd;0x728421021e3b606d65687ba10ab3220d;0x53b82e483e801e49aafd9406ab4b4257;0x4a52f5ade488c619e8370c3e5cb2efdf;0x8d4ef27cd1db976251a480444f5eb0f5;0xab1806fa7f4e8da9c7e3b829940f8124;0x90b1bd64592c52fba801f1c43706eba9;0x4fd344fe43384d730d334ea880aac53e;0x9a701cc2d48f872fa109752b4c36bfa8;0xdb776d6748eb02411e5d56d4380dd843;0xd6dc370d4b66b37a4e8705f13994ddc9;0x1a95b4d406d9a176a077a64a02f10ad7;0xbc26e8447a1a9de4374e4d4697678e79;0x105415728b7a74a2a97f22a579c15ed6;0x93ced25585fd2bdd4abccfb6c20e4cf6;0x9e65883f86709ae61a669c93c397497c;0x97db46a8d7023614f1d3260e4dafba22;0x30fc3f965e8e9c253881662c8b80e2b9;0x1e8020295426bcbf1b184ff28d50fc03;0x0f4010f52a135ebeec0cc679a7287ee0;0x66c5a08dc7be09067778b0bcfcd38a0f;0x77059051b98beb07806c3937d6ab08ec;0x4093540b692b13cde13f88d12782bbde;0xa2a6c86d2e3c215b2c5602b41a37727a;0xc1e2d9b34e32a337be2af09e3afcd294;0x6afadf49317c2e9e79c948b7aef353b0;0x12bf5feda2e49b2715a9b7f9df7025bc;0x54d2d584b0ae7aa6f32f43ccd1e213dc;0x5f87518cc84239d1a44c6c0df96b9be8;0xd35d865eecd63810ab834767e58cf728;0x65bacfbc1b6f702095c58ece09db2d50;0xa9f34c6556d0622c7b352d7532befa4e;0x3d5765fc5d032d1e685b35098a19e733;0x4486c0f63bd40e045a506169a8234d0a;0x81718db82719b0fa5f15784f1d7e694a;0xfcb5bc4f13318e29d671c597b0e535a7;0xdf62f99a1a141f88a532bf6cb7ac2e97;0x466d8a69124ae181e686f4350e923660;0xf8a028b241ce93e06d1e2c2f3f44c373;0xcc4983d94dbf120ceef0a3bb3b65d71e;0x00000000000000000000000000000000;0x522c0be6cbcf88eaf4963f28f8f29e62;0xed758c936d046c2821654c1c9a9db744;0xe4cb42043c76c0dacad0f68114a5441a;0x3a3d9e30d32d49f13189e2c3f0b0b6b8;0x731004aceb74f6ce3b03d08f590afe38;0x5d6c1b13e1dcd654189af9515fdae082;0x6eef4bb463833357c2a6a10f2152a564;0x8fa5b8e3f84578e7ed721518e9efcb9f;0xbf598775a6cbe4c2d5f37334626f2926;0xcf36ece8916e6b2a0c4d9dc9ce6d7041;0xb8337cb928e5802d8c21a4fe18c678ad;0xe7b42d35e0a7b9fc286dc8f3e1ade345;0xf9340d1cb4810543337587016cfd1f46;0xfd2199e1e67e188a881a6eb9e35ce992;0xb59826d32b683116dcfbf7db195f7d27;0x09bece975172acf2ebb5ba9d8e38f35e;0x47f9afc7e7057722b8ed5f1b5d2bea55;0xe55f67aac939567994bb5daf471c982f;0x31681a38abc10a8666eacd02d8393e8c;0xd4377d9262f85cfff25190ad9f25a6a3;0xe8f43dc0cab4e742c4610e8a46859da5;0x94a429990bd34f32136e187cb8a71d7d;0x1c6b6ab67db8533aa7cedaae2be18769;0x0ed4355bdf5cc81db2676d57f491a2d5;0xcb237815c39176e3b722747141cc8695;0x6d902485bf524a71201b9f7dd45a023b;0x3602e1f425ef6e693f381ac8a2906f07;0x357d8ec5f93e174fdd8524ba5798c858;0x747aff60655a922162d1074523a3afb3;0xc5f74d4e1ccdbefe05451926b55d2440;0x75eedace901504823cbaac6b701a7386;0xb2f2dd1fa54655f98529201163f62cac;0xd2c9a3f01999aeb3f5e8ec49b6352b1d;0x990f73f3085efe0943b44b59b93e18f7;0x23d745d5092591a173437afb07491b30;0x15d5a4212ccaffc84c7b6033a5d97437;0x082aeb39a43d3a51b5de11b3dd812f6b;0x27c2d1285bda8c68c82c934388e8ede4;0x19eadbe5da08d85042ca9838f7f9ad88;0x7691b5ff4cc47da4de0792198512d4d9;0x3942f1010ffc30d7d334dcb105b811e7;0x132b7a4357ab0d844bc21cd78cc9f989;0x0581b153a7b08b6ae5044296dc182ae1;0xee0ae3a2b1d5150ec3d8726e6f95101b;0x57adbab56c7f038011927dbe24eab483;0x9ff1ad91733f0c45440d37bd902e9549;0xbdb2cdea8f550b476925e668c4de524c;0x4512e558ce9b98a7043bca47fb9a913f;0xffcad37ecfe0f70f34ccfbe545ed92f8;0xc309932c67ac4cb202fc65c29c4da9fe;0x3ba9bb9e2662df526fe249eda3096a8d;0x7b3aef954f49cc9f8eddc13c848bd153;0x8e319d4d0d0aee44b319be36ba5617aa;0xe960186e3ffb71e19a0aa5a4153c4190;0xc85c17241f400fc5559f4a03b4c421ca;0x7c501459c167a870d70f16f6fe2280d8;0x6b6efae7c433b83d27a2e399fd4a8f85;0x4cac2bcf9fe93455ef8e70da75a26261;0x839ac7270e875f7fe3c3ed13bbcf1220;0xece1a93d984bfa8b7f0ee732c9246b71;0x706f6b9d37a58fe8d9beeefdac025967;0xe2359c6647173296cd698a653db5c9a4;0xf11ee62510bc3f1286ab96b2b17c302d;0xcddda677b8f084afb09b089568dc0b2b;0x5a06e0df6ff2b2bb41482e9b2573b109;0x2bfdaeecad18abf0c69d6b48dac8345b;0xc29db68292e3da115c97ceeccff475cb;0xa727793e898caa31c9524022c62f589b;0xa1d9a75cf2ed587dceeb3cc6ef3fd525;0x2c9755202336cf1f9f4fbc82a06165d0;0x06fede627b61f24c07b97ce429108dbe;0x2d03708ed67959bcc12417acf3d8b9e5;0x3e280acd81d254388ae60b7b7f11406c;0x71fb4e33c2ea194b87d545d3ffbb8552;0x3fbc2f63749dc29bd48da0552ca89c59;0xf6741de99e925bfddf794178cbd561a6;0xcea2c9466421fd89522636e79dd4ac74;0x38d6d4affab3a6748d5f779f5601cdd2;0x338350a7825fe503da3c585e7e8845e6;0x878f53da5c7842b658ac04ab346ee4f4;0x42781e9440b5fc485de91d8d8133c0b4;0x8cdad7d2249401c10fcf2b6a1ce76cc0;0x2656f486ae951acb9647386ddb5131d1;0x7aaeca3bba065a3cd0b66a12d7320d66;0xac72fd36f160e9469e316fe3eea6d0af;0x989b565dfd1168aa1ddfe077ea87c4c2;0x79d1a50a66d7231a320b5460223aaa39;0x8bb02c1eaaba652e561dfca0664e3d4b;0x58edaa40466c5d3efd9ebbc783c2ca63;0x56399f1b993095234ff9d690775368b6];
   [0xa82c9d1ed97ea9b3c0016b3dc4a383b4;0xb46ba49d6c77144c17a08059d2de39aa;0x9695c3d6728fd1d8b247ed286d2215ce;0x1eeb9c390ae943cd635d9a2fd454a59d;0x8ad2fa55c7866c2765e6064c7b5fafd0;0xf59950e153371dda6fe861e94942b107;0x9f36a12675f9d0097d4f330382738727;0xa5147659630b9706a43257806ca02f98;0x13d3777eb09c7d78076ea6927c5709b1;0x39d8c1981762c62437ffcc0c4d0f599c;0xacb714a9647d96d76b3a89ab83f1bd71;0x2d6a29b61b6d051375282087d5d69fcb;0x837198a5c0f06df6aaeed867940e3d39;0x86bca24fc3832d8b5babe335b2a9ed5c;0xb9534fdad6022af97393bce47add9586;0x76e8c84493c7702cc506b98edd4c8c3e;0x0f944efd0595c087d0cf4df66a2ab3af;0x5ad452af36da0a26ea5040cd696ffd55;0xa0d94cb36078d77b55776cd24a07fffd;0x920e4a61cf8ceebc197c0fbe2a702b0b;0xe2d1ae285ea85fc6c3bd25ed72478673;0x34e02adfad17f89153ccf0b1e50cf5b0;0xeebff6325aad1e6afdf0c094bbb1c4ff;0x6dce6e979a5d739c571e18f32fbff9c6;0x1a70158eb7ea7ca9c86678b993069b58;0x24c94b461c1b04c2ba20feac3a870d22;0x1fbd2f64b4993cd4392343ebb5a14b3d;0xd2aa0d404ebc98333b4a37cad0194d06;0x18dcb034080a829b7c9a09f2512f84db;0x371a3c38ac8779babd4e583e46d00493;0x6aaff1c726cecdd312a752eacb313620;0x3fefed951581077228385fd1c87478da;0xae1bb113db9d68e5dfc6f8e041d8a2f2;0x10296199b10cfc53e9ec0e1ddf8bf892;0x46936b2c83d3b7d93df1aba97f12474b;0x6c98ddca242d0c850d60c1374e4a1766;0xbc9e7530d5716a8482d687b65c7a45e3;0x6803547d992e33e1a65b23a1091829a3;0x0b0fc74ab896ffe37bf4af602d788d6a;0x3eb95ec8abf1786b72468615a981967a;0xfe9697abeba1e239141cce89643a3c6d;0xa97a2e43670ed6aa9a7fb2f9a5566d14;0x28a7135c181e456e846d1bd5f3714fae;0x7cb1bc539521f0d6e48ccf2a91c1eff4;0xf2f8cfb1efa4a3952a512bf0adcc7ee1;0xbf6463d7d4e1ebaf6c542f39ffa6b4c0;0xf4cfe3bced4762c33596b82d28b75fa7;0xcb200e29f8c665b11daee7fce0c3277d;0x06372c0d02e3c1561fc793dd857b2146;0xf8a1bba6e942236f0bdb5d54e1411d2b;0xbdc8c66d6b01159dd8a85e723d8fab43;0x7512dea39257f1072b8411017e907d1d;0x03fa16e70190812bee82a88fa3dcf123;0x4cca1f3b853537231c7bdd0d339f2481;0x4bab806b39a6896c59c29714d711eb67;0xc02fc96340509a52665a489ccdbbaa17;0x049b89b7bd033f64ab3be29647523ec5;0xb30a3bcdd0e4aa035219ca403650f64c;0xb6c70127d397ea7ea35cf11210f72629;0x51db95e58e4cf5c591a4efad4417703f;0xeb72ccd859de5e170cb5fbc69d16149a;0x98573e76c96a6e4638f6791a66fd48c1;0x23a8d416a088ba8dff99b4b5de09c2c4;0xabd68bf9d8ee28982e83c3b2677f7297;0xb25c88906e94d51a0867138457a518ec;0x99018d2b771a115f6288a0de0708a661;0x8928ecb2c616ed0c8b64aec3d8835ef3;0xdf92e607f4c9a6865f790b77781ae12a;0x0d38eb47ba753eb564333cbda803ac2c;0x312d1035ae64b8eca289cbe3c3ab25d5;0x70dfe4499124b17adac12a535837ad78;0x7325f2ae90b43051344382dcfbeb5c5b;0x1d118ade0b79c2e68ddf32a0778854be;0x8db365057b15d268205f4c559fd16036;0xf102d956ee3422bec4d3837f0e108fc2;0x7de70f0e2b518fcfbef216eef0340154;0x1748fec90d9f421cac5544043b053774;0x2c3c9aeba51d7a0a2f56f943b423716b;0x35b699821367878809b2297584f91b10;0x887e5fef78669215d11a7707b976b053;0x67971a809cbbf36676946e5763329a0c;0xe12bb8cf5f38deed2d3f8d62d19b7750;0xb53d17c0d2076b554dde599db32bd70a;0x646d0c679d2b724d9816c6d8c0ee6b2f;0xb1a69e776f045431e6e5bb0bf479e9cf;0x08f5d1adb9067ec8957607ef8ea47c49;0xe5b03178e23be18986046ff496c94995;0x1c473983b509bdffd7a1eb64167dba1e;0x6bf9429a98beb2ca48d98b2eaac4d880;0x5ce37ea23439cb70f597d310ec14dc13;0xa3235a5461e85650bbf5c45de9db0ede;0x7a86905e97c23180fb4b5cf714baceb2;0xe888da3f584edf3ce23753493ecae5b9;0xda5fdcedf7bae6fbae3c30255ebd314f;0xd76737aa4dcfd84eca0f0c98f6be9d63;0xfa0d1e1c56a2dd5dbf272c1f236802a8;0xa7b8d3e3dceb693410ce26cbae89301b;0x7f4baab494b171fd0a0e67a5321d1ed7;0xe4e682255c4b9e90dc7ab630f73ca735;0x8f1fc0bfc4f52c5a94a33d1e5df87fb5;0xa18fffeede08a8620f09b5162bf2115d;0x522183028fdc74ee7f264722e7cb811c;0xec135388e54de058490cb1df7998db7c;0x3b746422a88238168303bd478f26461f;0xa275e909df982949e18b1d99882ee07e;0x5f19684535a94a5b1b157b9f4fc82d30;0x508d26b8303c8adccbda366925e29e9f;0x4afd333687d6f67503bc4ed0b6e405c7;0x57ecb9e88caf34938e637c70c16c5179;0x55401c52334fcaa13a9f0d3b03454efa;0xdc68f0e0f55927adb1fba3f8dbc61009;0xdec4555a4ab9d99f0507d2b319ef0f8a;0x9d9a049cca192e3bc9b34248405a98a4;0xe71c94c25ddb1fbb32f81ebf54e05616;0xaf4d024e65ed17fc85b82124202d4c52;0x97c3708bccffaec1e83934ec0cd7fb6e;0xaa8038a4669e578174fd1a76068a9c37;0x2665eefca3fbfaf00edc8fe7f8ae12a1;0x4d9cac663b45483a460504c9526aca21;0x5416af0f8d3fb5b860e1d4ff62b0a05a;0xf735f55becd7e3e8db1410a28b6bae84;0xd9a5ca0af62a67d040be98aafd61c06c;0x841007f57c63d3b9ef57927e7080f2df;0x41f2f47c3f4009967848e1b09b9c88ad;0x82272bf87e8012eff09001a3f5fbd399;0xd63184f7f3bfa7579071d55c974b73c3;0xb791b27a6de79567f92228d67102c889;0xdb096fb049ca99e2f442e9e13f48dfef;0x2b5d05bb198ec4456aefb35a50adbe8d;0xa6ee60be629b162d4ab0ff0fcf7cdebb;0x388e72c5a912b93d6d8115c82cfab73c;0xceed34c3fbb525ccecebdcaec664f718;0x956fd531731f50f35cc545a7cefee4ed;0x718957142f54ce6380bff39739c243d8;0xc3d5df8441c01b7988d8e0136e675b34;0x8e4973e27a855343cedde4da3c0d9115;0x9afb9bcc768a90748c0a0851a4d45742;0xefe9456fe4dd6173a78e1950da442a5f;0x259ff81ba26b7bdbe05e27685b72e382;0xa442c504dd7be81ffe4c8e440d55c138;0xe9de6962e63ea025b8498a8d5f3f0b19;0x3c15fb7214118659c6baf75e6ba889f9;0x6f62cb2d25bd8daee3e269b8ed96e645;0x02aca5babfe0fe32b4fc714bc2291f83;0x0156b35dbe707f195a7ed9c461f5eea0;0x0a59741706e680fa218a76a44c8d63ca;0x09a362f0077601d1cf08de2bef5192e9;0x9439666ccd6f2fea06bb9c63af0b0a4d;0xed45e0d55b3d9f411372681b186d35dc;0x592e4448374a8b0d04d2e842cab30c76;0x61a0368d9e5832306953fd8ae649bb4a;0x6955e720275e4cf8fc25fa6568edc703;0x29f1a001a66e3a77de13c2119284a10e;0xb0f02d2ad1742b28bc9b62cf958c076f;0x307ba3681014c7f5f8f71227a25ecb75;0x60f685d020284d29332d244e87bc55ea;0x74446dfe2c278e1e71fac8c51f6593bd;0x22fe674b1ef8c594a5e76d71bffc2c64;0x0c6e581a040541ac3e4de579c9f6428c;0xcd172224fa25a4e70269742165b8063b;0x7bd0230329b24e99a1358533754f2012;0x5b82e1f288aa753fb02e9909089a13f5;0x40a447218130768f22363874fa69660d;0xe3871d75e0d820df99c3fc2913b268d3;0x14b2e82e0c0fc33742d7ec8b98d9c657;0x00000000000000000000000000000000;0xfd6c814cea316312fa9e6606c7e6cd4e;0x782a35e42822cfb24fb72dbcd693d131;0xade1a7f4da0de9ce3144506fe20453d1;0xd006a8faf15c66018fb6468112305285;0x91f45c86ce1c6f97f7fea73189acda28;0xfc3a321154411c0ba0e0bfc2a61323ee;0xf9f708fb57325c7651a5849080b4f38b;0xea247f85e7ae210e56cb2202fce3fa3a;0x8546b4a8c213aca0b5294bba11751c7f;0x7e1d19e92ac10ee45070be6153e8f077;0x77be7b192db70f359f78604abcb9629e;0xc74e5633fcc3241d23e30285293565f1;0xc5e2f3894323da2f971f73ceeb1c7a72;0x5db5cdff8a49b469afe90ad48de132b3;0x3a22d77f16f2470fd97d6483eed3a8bf;0xd5cb9210f22f267c7ef37dd3349782e0;0x66c1a9dd22cb8c7f2ceab79302c774ac;0x8b84490879f6133e3f98df881aaa4170;0x490725d18646775eed3ee65f1538f4e4;0xc2836cd9ffb06460d2a639d70f92b594;0xc618e56e42b35b04799ddb4148c08b51;0x56ba0ab532df4b8ad41da5b4a099bfd9;0x4e66ba813ad5c911a887ac46f1b63b02;0x27335da11d8b85e954a25623995bfc01;0xe64a279fe3ab60a26886c77b3515b8b6;0x9358f93c71fc91a54302d67a4b85c5ab;0xbbffea6069e2d4cbc76fcdafb8f48a05;0xd1501ba74f2c1918d5c89f4573c5bc25;0x630c933721b8cc02ddaf8cc12460a4c9;0xc1797a3efe20e54b3c249158ac4e44b7;0x45697dcb824336f2d3730326dcceb668;0xc8da18cef956e49af32c4f73431fd65e;0x161e4d94b3ef3d05f62b9dc05af0d9d4;0x1b26a6d3099a03b09218a17df2f375f8;0x2052c2f1a1183ba6111b1c3a7dd533e7;0x9bad2891c8faef6dd674d195c521b9e2;0xf3ae7cec51d4dc8c702ff234cc399041;0xb805fc87687255e029ed65201b287b26;0xf0546a0b50445da79ead5abb6fe56162;0x2fc68c0ca48dfb21c1d451cc17ff8048;0xbaa9593dd792abd29d11146bd90164a5;0x4f3009dc84a5b608f2f975829043d5a2;0xbe32d08a6a9194b6362af6fd9e535a60;0x1285c4230eec02615d107f561da2e711;0x435e51c680a0f7a4ccb490fb59b5972e;0xcfbb879e45c55ad5b695056aa79119b8;0xc98cab9347269b83a95296b722ea38fe;0x2a0bb6e6a7febb5c30916a9e3158502d;0x117fd2c40f7c834ab392d7d9be7e1632;0x15e45b73b27fbc2e18a9354ff92c28f7;0xf663460652a79cf1816ac966ea9e4024;0x625a206a9fc8b31b87d1550545954a69;0xcc4191794455dbfe5817ade5044de89b;0xe07d0b92e148a1f4774154a6b06e99f0;0x8ce5d658c565ad717a219591fe248e96;0x90a2efdb706c108ead807ef5e8593488;0x47c5d8713da3c8c0678f726d1ee7a9eb;0xffc024f655d19d204e62174d05cfd2cd;0x81dd3d1f7f1093c41e12a92c562722ba;0x5e4fdb188bd93542416ba25b2e3dc390;0xfb5bad41e8d2a244e559f5db429dec08;0x797c86b99652b0ab15c9f478b7663f91;0x364c8f6512f706a3e73081fa2725ea33;0x32d706d2aff439c74c0b636c6077d4f6;0x0ec2fda0bbe5bf9e8ab194320bdf5d0f;0xd3fcbe1df0cce72a6134ee0eb1eca3a6;0x3381b58f118446de1675baa801823a56;0x5377305f31ac0bf725589ee6863e6fbc;0x87ea11127df3529201d53af1d35c03fc;0x210471ac1f6844bf4b65c5fe1c20dd47;0xd49d214d4c5f5965248da41755626c40;0x07619f50bc93be4f45b94a19e48ecfe6;0x4851968c38360847b7403f9b74cd1a44;0xdd3e43bd4b2958b4eb857a3cba33fea9;0x6e3478709bcdf2b7b99cb07c8c6308e5;0xc4b440d4fd53a536cd61aa0a8ae994d2;0x5878f715893af4145eac3186ab46e2d6;0x9cccb7c17469512293cd9b8c21af7604;0x05cd3aea0373407df1453b5226a7d065;0x198a0369b67afd8226e4d03630da6a7b;0xd8f37957485a18c91ac0416e9c942ecc;0x808b8e42c160ecdd446c70e837d2cc1a;0x9e60127bcb89af102731eac7e3866987;0x443fce963c3349eb890ddae2bd3b58c8;0xca76bd7446b61aa847d03e388136c9dd;0x3d43482faa61f9409cc42e9a0a5d6759;0x2e903f511afd84389baa8808760a6ee8;0x727341f32ec44f486e3d5b189a1eb2fb;0x4208e29b3ed088bd96ca493f3840798e;0x653bbf3a235b0d54c2681f1ca11b858f];
   [0xd4192dd4c2c3d39ce15da9182cd1be8f;0x407bcb409434a60450b314db6b2560b5;0x97c0d2973c7b8184c271d187950f3db7;0x4d69b64dd9841dc1cfff4334eba78abf;0x03a234036a8cf41c739f6c44d2fbe38d;0xd13c71d17c940cb8743f1dd4991f58db;0xf80879f8e3acd6eec6dcd04736488445;0xcac726cac0f2544419d297f51430afb4;0x53b7bd53dbb59a1937707dd9d3469b84;0x662027660af5de3e9ef6c6dfd8e355d7;0xa50f8da51f25032e1d7f9635b7771646;0x106e4210250dc801145c05466a9818bc;0x6c6a9f6cb55ba37677326d8471bc5a7f;0x90981790ce654709b4f92d33bcd2d815;0x5ea5c05e960521dca83c2a3653c4718e;0xbd56eebdc9cfafce030d7050e8a302a4;0xc7d55bc78d42ef81869ec01a94b245be;0x20dc84204a1a530228b80a8cd4f330bb;0x3635ae36bbccb03bda19d742d95e2dde;0xe6d672e6e19d51363e53eeaa0ea9957e;0xf39d6cf37ac74613bf6d5f20d1ff6b96;0x78fe2c7808c459e66679f832e00244ec;0x60a74f60de2ef506780b1e57bfd6500e;0x0ccdd00c6b7556700f3973d3ce6a0a71;0x3c7f163c0462cd7333dd7c1970012276;0x7fa6e97ffada9f6b10f10486c9dfa14e;0xc08d9ec07f5c290cf0163caebd6fa01c;0xfa75e0faafe5cf472536983faa5b87b3;0xe57446e58b11a52a4dcc82eedc5276f3;0x2c11542c216f05722781795f1a993aca;0x293408299f38da56b2e3cd93af57dc9e;0xce3dd7ce586066d51cc50705ef16a99b;0x7c04dd7c90566b77636e68c21b2442c3;0x0758c507f21ec68d7688fcb429dde5a2;0xb4be62b41ced269a9956b74f9307ee81;0x8129f881cdad62bd30d00c4998a220d2;0xa25748a2ed3bc5a36bf76a819eaaf3e4;0xf03f58f0104bb20fccf233640304881b;0xb6c3fbb650a43f337abcff370f14ed77;0x43d9ff43feb85218232c789fb9de8338;0x67ff8a672c30338b0e83e2e3960bb5ac;0x59fd0559641be751deb4d6827a19942c;0xec9ccaec5e332c7ed79745f1a7f69ad6;0x86713d863fb3a4304658f0fdb17fc570;0xf4c5a9f488d9809ec9e5a394f8228e34;0xf6b830f6c49099372a0febec64318dc2;0x5cd8595cda4c38754bd6624ecfd77278;0x92e58e92822c5ea05713654b20c1dbe3;0xa81df0a85295b8eb8233c1da37f5fc4c;0xcfe27acf7ea58b608cb02339a1fe49e0;0x2fb3602f4be3f16e541e151bc862d947;0xe9b996e9e064f35a42f5f13d12387c82;0x54ef785429ab5c9441f8816dfa9b7e26;0x8f99b18fea912d64dc0337e2cadb2955;0xaa6069aa1edca14261d989a2abe6ffba;0x24267524d28861932daf9a7c2fd53694;0x7116a071dde6d0b2fc223f2d9ba6a8c9;0x6582136560792a22ed69aa9b0a18b65a;0x99709b991b47ce5d2ea2ea2cc7763430;0x961f7f961abe6c315204f5bbdbe7ddcc;0x9c55c79ca5101179bbc05ee072b8d264;0xddf1a1dd17e15ac87b066e07577552aa;0x5a5f315a0e97134dad2bbac6a8e277a1;0x80f65580eb688f08a0a52875d64ac0a9;0xe8663be8c6a11eefd280d5015cd09cf9;0x50158950b1396e0544ef119d01bd7809;0x574d4c574327a8883267ed2928609dab;0xe4abebe4add4489fddb9a6d292ba9688;0x1ede0b1e023187d8f88f3eed38e1113b;0x840ca48473fabd99a5b2b8852d6cc686;0x154b1e159b5a1725813eb18adf56fee8;0x41a46641b2f14bb1c0c630e725cd80ce;0x1986ce19f02f41558e07c259113cf499;0x265bec269ec1783ace45d204b3c63562;0xa02ad1a0a172dc0a881d22f902b9f012;0x0b95150b996b90fd79b18f67e7b7efd3;0x22a11d2206534aabcb5242f448e0334d;0x9d8a6a9d83d5fccc2bb57adc3c50321f;0xf51a04f5ae1c6d2b599087a8b6ca6e4f;0xdaa964dae5ff9c450d8e92b37ea8b708;0x37ea03379d095d8e4a6cf37e97b6cda5;0xa77214a7536c1a87fe95de4d2b6415b0;0xcd9fe3cd32ec92c96f5a6b413ded4a16;0x63057b63b4a2011a0b9472136d2db383;0xbc8943bcef0a427b9378546ca64be2df;0xe22c83e2790f63a73b447e5af58f9351;0xd664b4d68e8aca3502b7e160b0c2bd79;0x9462e69456f77598b1eebdc347f4de3a;0xa4d020a439e0ee9b8d0ab209f99ff63d;0x88c17488188febe9aa8bcb56e306ccf7;0x62dad6629267ecaf9be1562f23c553f8;0x2e6ccd2e6d261cdbc46b3127868a393c;0xc8babfc88cbb4dedfa38df8d8823ac42;0x18596318d6eaace01e72e6655fd414e2;0x06876806d4db2b38e6fdd888673505d9;0x16e92a16f1d6e339f2a1ddce0dad1d65;0x13cc76134f813c1d67c36902b863fb31;0xd29e45d21618f8a407a071904be4bb56;0x5b809c5b2852fef83d5e9efae60a97da;0xff50bcff11b21063b0542cf31f9561e7;0xbbd186bb1d1484f6e5f0a8d88f96077d;0xc2f007c2331530a513fc74d6217ca3ea;0xb9ac1fb9515d9d5f061ae0a01385048b;0xbf2b77bf8586b667e0e7382874b00152;0xef3efeef34bfd862a40829b5750d795b;0xdc2e0cdc3124b77deb734a3b199db2d1;0x1bfb571bbc6658fc6ded8a218d2ff76f;0x27844127b804958f5e30f638fd2ed519;0x3e028f3e482bd4dad0373461ec122180;0xe709dfe7c758bc83ae26ca9640417505;0xb04493b0847f140b9c4127bf6821e8ae;0x694fc3690b0c7c52e250d948c472bc2b;0x210329216cdfbeb7b8cd2eb09a1bd0c0;0x0f6fe40f01f9a26c7ca61f971c91e9fc;0xf1e0f5f1368e5fba5c8717584dec6860;0x1a24fa1a9aa3b549fd98ae1dc3c71714;0x0d127d0d4db0bbc59f4c57ef8082ea0a;0xa6adb9a675a9f7326ee0fa71658cf5cb;0x027d99024c4919a9e3ea48789c1303f6;0x6aedf76a6180884e91cfb50c16895fa6;0x08372108f3e764e10a2ee323354c0c5e;0x4cb61b4cff41f0745f8a6708a54f6ac4;0x4993474941162f50cae8d3c410818c90;0x9147ba91e8a0aabc248c090ff23a386e;0xe18eb7e1138397bb48db121e277470dc;0x8b63408b72031ff5d914a71231fd2f7a;0x1494b314bd9ffa90114b95b691be1e93;0x95bd4b957032982d219b99ff091c3e41;0xb873b2b8779870ea966fc49c5d6de4f0;0x9e285e9ee95908d0582a1698eeabd192;0xebc40febac2deaf3a11fb9458e2b7f74;0x6e17066ef912badf94d825fcedaf5989;0xc32faac315d0dd10838950ea6f944391;0x98af36983d8223e8bed7ce10899ed44b;0x70c90d70fb233d076c571b11d54e48b2;0x72b49472b76a24ae8fbd5369495d4b44;0x04faf10498923291051790f0fb26062f;0xed4367ed78f6c1cb47e261cde91e7aad;0xf242c1f25c02aba62f187b1c9f178bed;0x47230e47662a6089263be86f42f88517;0x455e97452a637920c5d1a017deeb86e1;0x9ad2af9a71cb3a415d3d8668158dd7bd;0xd5c680d5e4063e2971288d2462395ef4;0xd90b50d98f7368597e11fef7ac535485;0x8de4288da6d834cd3fe97f9a56c82aa3;0x3b27d33bf67c0bfe455580ad59dcc7d4;0x6fc8ab6fdfd7576a04ad01c0a347b9f2;0x4ecb824eb308e9ddbc602f70395c6932;0x34483734f785a99239f39f3a454d2e28;0x7433fc7463b10f9669408be12e684e9d;0x9ff7f39fcf9ce565c85f32a4a04331e9;0x7ddb707db69386c2f31b4cfe55cca2b8;0x6178e261f8eb18b3e87e3a6bf13eb075;0x316d6b3149d276b6ac912bf6f083c87c;0x09e88c09d52289549a5bc71f7ba4ec25;0x1213db126944d1a8f7b64d3ef68b1b4a;0x645dbe6446bcc7977d1c8ea744f05621;0xd7bb19d7a84f278092c2c55cfe2a5d02;0x933a2393a4e9b315c76641776e293b98;0x3af87e3ad0b9e64bd520a491173427af;0xa388e5a3cbfe2816fb824ebdd042139f;0xad38acadecc267cf17517516823b1a18;0x1ca3921c4e789e711b657695a4f212cd;0x7e79447edc1f72de808420ba87374135;0x764e65762ff8163f8aaac399b27b4d6b;0x00000000000000000000000000000000;0x3310f233059b6f1f4f7b638e6c90cb8a;0xf7679df7e2557482ba7acfd02ad96db9;0x28eba528b9fd37e32296e9afe1bf3ce5;0x237eb0232096a71e5b2766c80608d336;0xb2390ab2c8360da27fab6fc7f432eb58;0xbef4dabea3435bd270921c143a58e129;0x42065242d87dbfadb3595ca3f7366343;0x11b1ef1103c825b48429217a2470f8c7;0xc4776fc4e7ce1b9df501ac5e4649a633;0x5f7a6d5fb0c0cc6938490e0a1d2c91f5;0x30b2c6306f179b033ce40fcabe6b2807;0x01dfad0126c5edb59075243c4ee8e07b;0xd8d4fdd8a9b685ecee64dacbe2bbb4fe;0x05255c05be57df249562b4ccb5cee654;0x32cf5f32235e82aadf0e47b222782bf1;0xdf8c38df5ba8436198ec267fcb66515c;0xba0e2bba3bd1694375858ce4c17ee706;0x8e461c8ecc54c0d14c7613de8433c92e;0x736b397391afc91b1fc8775507b5ab3f;0xfd2d25fd5dfb09ca53be648b83866211;0x8c3b858c801dd978af9c5ba61820cad8;0xb3e6a7b3eef3e017efde4bfbbada0b23;0x5692e15665e2453da212c91566887dd0;0x2b49912bd371c3ff510985eb3344df68;0x828bcc82a72196a1434f600d4a59c35f;0x6b325a6b474565fb01ba91305861bfdd;0x87ae908719764985d62dd4c1ff97250b;0xae9a98ae864e93d364ce195250c0f995;0x46fca34640ef8d3cb64ecc530c10656c;0xa9c25da97450555e1246e5e6791d1c37;0xe0511ae035467a0ed8ae3622699c90a7;0xc60af6c6ab87023416ebe426da5aa5c5;0xaf4535afa08b7e66f4bb3d6e1e2819ee;0xb19b3eb1a2baf9be0c34038326c908d5;0x0eb0490e273c4fd9ecd33bab52790987;0x891ed9893e4a065c3afeef6aadee2c8c;0x792181792e01b453f60cdc0eaeeaa497;0xd341e8d330dd151197d555ac050c5b2d;0x2dcef92d07aae8c7b7f45d635471dab1;0xc96512c9aa7ea0586a4dfbb1c6cb4c39;0x0a4ab80abfae7d48e9c4ab5ba95f0fa8;0xdb76c9dbc33a71f09dfbb68f30405773;0x7b5c187b6248adfa15e6947632f9a761;0xde5395de7d6daed408990243858eb127;0x484cea4867d3c2e55a9df7f85e696ceb;0xe3f32ee35fca8e12ab315a66bb67732a;0x4beede4b0d5f36f929029bbc8c928f66;0x35979a35d1404427a986bb060ba5ce53;0x8abced8a54c6f2404961832e7f15cf01;0xfbaa4dfb892022f2b543bc03e4b367c8;0x85d30985553f502c35c79cb9638426fd;0xcb188bcbe637b9f189a7b3c95ad84fcf;0xb71c56b77661d286eac9db0b41fc0d0c;0x2a963c2af5b42e4ac17ca1d77dac3f13;0xabbfc4ab38194cf7f1acad9ee50e1fc1;0x3fdd223f6eee396f4042105da2fac1fb;0x395a4a39ba351257a6bfc8d5c5cfc422;0xea1ba2ea8ae80746316a9d79c0c39f0f;0xb561cfb53a28cb2f09239373ddef0efa;0x51ca245197fc83b0d49a35a14f559872;0x9b0d029b570ed7f4cd48a2545b6537c6;0x7a83b57a448d404f8593b04a7c11471a;0xa1f57ca187b731bf186806c54c511069;0xd0e3dcd05a51e10de44a39e8d7f7b8a0;0x4a31734a2b9adb4cb977bf80c27a6f1d;0x7791c877093dfb8a1adfe7a5fc93ad10;0x5d07f45dfc89d5c0dba34672813f9203;0x4f142f4f95cd04682c150b4c77b48949;0x1d7c3f1d68bd73c48b1052a9ea1af2b6;0x8354618381e47b14d33a443104b12324;0x52681052fd7077aca70559e59dae7bff;0x25f9d825f44d8c26bddabe40613dd6ef;0xfe8f11fe3777fdd6202108cf517d819c;0x3da0bb3d22a720c6a3a858253ee9c20d;0x5822a85842de0ae44ec1f2be34f17457;0x5530d5550f6eb121d18da551b4739e5d;0xf9d7d4f9c5693b5b56a9f47b78a0643e;0xace701acca078a7a8724512accd3fa63;0xfcf288fc7b3ee47fc3cb40b7cd6e826a;0x68906e682dc991e77225fd748a9a5c50;0xc15233c15999c4b960631892f3874067;0x3885e7389cf0ffe236caece98b272459;0x75ec51754574e223f935afdd6080aee6;0x6db5326d939e4ec3e74749b83f54ba04;0x1f01a61f24f46a6d68fa1ad17609f140;0x17368717d7130e8c62d4f9f24345fd1e;0x44813a440ca6949555a4842b9003669a;0xcc404ecc14297f7cff2f4f7d7305aa6d;0xc5a8c2c5c10bf6286574886208a14648;0xeee153ee127a35d7347d0d893be59920];
   [0xfe50717cfc9bad09fc5e383f3f68531b;0x6d9fd8f4eee2d1e9ee903cdadaa3bcf8;0x5394e401dd920e3addb8b0a6a6245d4e;0xabb814531191f4f01118c595957d5fd3;0xc05b4d89cfeb72dacf76b44343efb2ad;0x7dbda6246e653ba46ec427fafa9a462f;0xaf51ea6731c02f72310db39d9de28096;0x727bc66f16da5f6116847ae4e4012da3;0x2793a340fbd00698fbc2874e4e14216b;0xf9872e5fc486bc0bc4348931310e451d;0x8ebec809fa887e29fa3179dfdfc7f07b;0x8a57363ddad9a5abda240fd7d7582f3e;0x3c9e43ef23b9539223c3b77878296f75;0x50aa4516c5dec4bac5c777a0a0dd940d;0xe1b46fe704a32381044a7e0101cac240;0x4123e5cb4ddc68364d07908282b3295a;0xb45c0ac8e9a97a78e90c83ababdfce88;0xd7ae6c7a7771899577481e6d6db05e7c;0x1e4fc096f0bdc849f080ba3c3cf5d6db;0x237a5d74db81dd1adbd7f146468bfe2e;0x2ac0bc1193a6ee1c9369e1545421c424;0x75ac994c2ec74e632eeecbeaea673ba5;0xba31b48e9993587c99d822b7b713e284;0x86aff761ba2a0beeba1b95cfcf3a8df1;0xdb56ad26178227d01777847575d2fcb3;0x7692385b368b84e336910cecec9ef2e6;0xb762abdff1e5b0f8f17344adad2607cb;0x2f829c28bb72735fbbe86b5e5ee95ce1;0xe32110fd146aafc014a1450505644c83;0x51019b1bcd5b827bcd538ba2a28ad38d;0xd2ec4c435fa514d65fc994676778c6b9;0xb11e2af1c17de73bc18d09a1a117564d;0xb6c975d2f960f639f9e7b8afaf71404b;0x033ea117184cca80187fc70606f9c943;0x4461c5f26508f57565861a88887bb19f;0x9a7548ed5a5e4fe65a7014f7f761d5e9;0x8d80691ee2c4b4a9e24ebed9d93e3938;0xea9bf1985c4d9cc65c1f551717ce7689;0xc4b2b3bdefbaa958ef63c24b4b706de8;0xadc4957d2109a33321e68899994c0e55;0xb90f159981df92fc81a7e5b1b1ea2bc7;0xe28acef01cefe9011c35b90707330b03;0xe66330c43cbe32833c20cf0f0facd446;0x994be9fa42128566420fd3f1f1981caa;0x29fe1d068bea249c8b16265252d80d67;0xa92d6b49015878b101f3fe9191d3d110;0x616719a88e117fac8eafa6c2c2c11e37;0xd07933594f6c98974f22af6363d6487a;0x489904ae05fb5b3005b9809090191350;0xf19611378424c9cc841e652121f33897;0x915ad69202b0f0a102253fe1e1656120;0x658ee79cae40a42eaebad0caca5ec172;0x24ad0257e39ccc18e3bd404848ede828;0x9c09c9c36ac618256a8e59fbfb50846f;0xc84a72e18f49071d8f5c58535312cf27;0x14cb80e4a0d631cfa0416d2828a62592;0x70eeb9750613d320066f41e0e0afa360;0x39dc63d60b6dced10b423d7272e1f7b0;0x55e8652fed0a59f9ed46fdaaaa150cc8;0x131cdfc798cb20cd982bdc2626c03394;0xd605b2777ff4cf547fdce26f6fe719fc;0xfb125145d44f304ad4dfb23535a0cbde;0x22d18379d3049bdbd3430d4444dcb9ae;0xdafd732b1f0761111fe378777785bb33;0x2506dc5aeb198ad9eb29bc4a4abaafa8;0xe7c8eec9343b744234b4330d0dfb93c6;0xe4f64fde2c77bec22ccbf40b0b025a85;0xa3a92b3b513381375132298585802259;0x8c2bb713ea41f268eada42dbdb697eb8;0x19989fb5c8a0d94bc8ea0b323293c0dd;0x09bae1654827330648be101212aa3a0a;0x2d17e332abbbff1eab03505a5a47d222;0x8f151604f20d38e8f2a585dddd90b7fb;0x9418f6ab2a646de22aa4b5ebebadf9e5;0x0d531f516876e88468ab661a1a35e54f;0x85915676a266c16ea26452c9c9c344b2;0x577d1a35fdc3d5b8fdadc6aeaebb820b;0x968d89b13aade1a33a4f8eefef037726;0x697626c0ceb30a6bce854ad2d23c63bd;0xf82cf052cc03facacca075333359029d;0x5ec7fb50b5e4e6beb513d6bcbc11b801;0x0e6dbe46703a220470d4a11c1ccc2c0c;0x714567780e9695e10efbbde2e2f8e4e0;0x7a6af90756782aa656ae96f4f4fc5029;0x01abde0d088546c10894fc0202574780;0xe01fb1ea0c2665400cde8203039d85c0;0x7e8307337629f12476bbe0fcfc638f6c;0x93cfa98812797ce012ce04e5e5cbefe3;0xce36f3cfbfd150debfa2155f5f239ea1;0x9f3768d4728ad2a572f19efdfda94d2c;0x3ae2c2c113210451133dfa7474183ef3;0xd1d2ed5447e9de5647b6536161810ffa;0xf2a8b0209c68034c9c61a227270af1d4;0xcf9d2dc2b754161fb736e95d5d74d921;0x43b69ad15d15e4775decab86861da799;0xc9e1acec87cc41dc87c8a451514588a7;0x4a0c7bb41532d7711552bb9494b79d93;0xbde6ebada18e497ea1b293b9b975f482;0x6259b8bf965db52c96d061c4c438d774;0xac6f4b70298ce5f22972749b9b1b49d5;0x02957f1a10c98c4110eb3b0404ae8ec3;0x37b1dd907b57ecd57b969c6e6e2ddbbc;0x824609559a7bd06c9a0ee3c7c7a552b4;0xc1f09384c76e341bc7e2484141b8f52d;0x26387d4df3554059f3567b4c4c4366eb;0xbb9a6a8391161ebd914cdeb5b544a504;0x0fc6604b78bf64c578405d1e1e9b6b8c;0xd490cd6d6f3d43156f37d96b6b49973f;0x5b85db699d307bfd9d925cb6b6d920c4;0x63f266b29ed8f3ed9e449dc6c66f90f4;0x8704296cb2af4d2fb28f69cdcd6dca71;0xbf7394b7b147c53fb159a8bdbddb7a41;0x972657bc3228a76232db72eded5430a6;0x46f4bae875c17934756d218c8cd53f5c;0xaa13ca5e1914b231198c3997972a1853;0x4f4e5b8d3de64a323dd3319e9e7f0556;0xc627cca7ff732519ff88f94f4fdee32b;0x4ee5858035630cf33547cd9c9c2842d6;0x80d3764f8ab25c2d8ae5d8c3c30bdc77;0x7f28d93e7eacb7e57e2f1cfefe34c8ec;0x45ca1bff6d8db3b46d12e68a8a2cf61f;0xeb302f9554c8da07548ba91515993109;0x68ddf8cdc6364caac611b6d0d06b243d;0x10227ed08087ea4d80541b202039fad7;0x2044fc63c3cd179ac3a836404072376d;0x5f6c255dbd61a07fbd872abebe46ff81;0x4932daa30d7e1df10d2d7c92924e54d0;0xd347924e57205217575d6865652f8139;0xc2ce3293df22fe9bdf9d8f4747413c6e;0x56d6c438f5469379f5393aacacecc58b;0xe55d91d324f2f803245f080909551d05;0xbc4d35a0a90b0fbfa9266fbbbb22b302;0x7739e6563e0ec2223e05f0eeeec9b566;0x15605ee9a853770ea8d5912a2af16212;0x306682b3434afdd743fc2d60604bcdba;0xb0b5f4fcc9f8a1fac919f5a3a34011cd;0xc365ec9ed7a7b85ad709734545167bee;0xa6eb0b0279e71c7479b3a38f8f48ba9c;0x6a4887d7d6ffc0ebd6fa8dd4d4c5aafe;0x6ea179e3f6ae1b69f6effbdcdc5a75bb;0xee720fac7c1c47447c0a231f1f51a9cc;0x95b328a622e12b23223049e9e9fabe65;0xbed84abab9c283feb9cd54bfbf8c3dc1;0x3877bddb03e8881003d6c17070b6b030;0x1cdabf8ce0744408e06b8138385b5818;0xd8680c310fceed500f084373732b35f0;0xfcc50e66ec522148ecb5033b3bc6ddd8;0x6be359dade7a862ade6e71d6d692ed7e;0x9e9cb6d97a0f94647a6562fffffe0aac;0xf3036e2d94ed458d94f55e25255db654;0x165efffeb01fbd8eb0aa562c2c08ab51;0xf6414e14bc39d8cebc74d42f2f952e91;0xfab98f48dcca768bdc4b4e3737f78c5e;0x1d716181e8f102c9e8ff7d3a3a0c1f98;0x0542203928d49d4328818a0a0ac898c5;0x0a844072506bf98650c1d7141453f349;0x795458104e34e0264ed151f2f205996a;0x3e0b3cf53370dfd333288c7c7c87e1b6;0x90f1089f0a35b6600ab1c3e3e33226a0;0x98e037f74a97c3a74a9b2ff3f3cf5b2a;0xcd0852d8a79d9a5ea7ddd25959da57e2;0xcb74d3f69705cd9d97239f5555eb0664;0x0cf8c15c60f3ae45603f9a181862a2cf;0x361a039d73d2aa147302606c6c7a9c3c;0x73d018621e5f19a01e1086e6e6566a23;0x00000000000000000000000000000000;0x9da217ce62435ee4621aa5f9f907c3ef;0xe9a5508f44015646446092111137bfca;0x926477851afc3a211a5af8e7e79ca863;0x17f521f3b89afb4fb83eaa2e2e5fecd1;0x07d75f23381d1102386ab10e0e661606;0x8178a84282371aec827124c1c15c9bf7;0xed4caebb64508dc46475e41919a8608f;0xcadf0dfb9f808b5c9fb7635757bc41e4;0x74074741264208a2267a37e8e8307c25;0xa13c542141fa0d7641d91281812eac9a;0x5df95a47ada82c3ead6c11babae87142;0x40883bc645592ef745936c8080e46eda;0x78ff861d46b1a6e74645adf0f052deea;0x83edd75892fe96ad929a1fc5c5f21534;0xdd2a2c08271a70132789c97979e3ad35;0x7bc1270a5efd6c675e3a6af6f6ab17a9;0x421d44dc5590a2b655785784844ae019;0xdc81f2052f9f36d22f1d357b7bb4eab5;0xf03dcf3a8ca18f0d8c8a992323a47f17;0x2cbc3d3fa33eb9dfa397ac58581095a2;0x5c52844aa52d6affa5f8edb8b8bf36c2;0x475f64e57d443ff57df9dd8e8e8278dc;0xa47e7418692e90356958988b8be6345f;0x523f3a0cd51748fbd52c4ca4a4731ace;0x5a2e056495b53d3c9506a0b4b48e6744;0x3fa0e2f83bf599123bbc707e7ed0a636;0xd9c3d23c074bab91079cbf71717c7270;0x0b2f9e7f58eebf4758552b161604b4c9;0x2e294225b3f7359eb37c975c5cbe1b61;0x08113f6840a275c7402aec1010fd7d8a;0x60ccc7a58694396d863b5ac0c09659b7;0xf4d4310eacf0548fac9fef2b2b3ba052;0x4ba7a5b91db791b01dc6479696e0da13;0xc78c12aaf7f663d8f71c054d4d89a4ab;0x067c812e309857c330fe4d0c0c315186;0xdfbf531237d3fc523762f27d7d4d23f6;0x3524a28a6b9e60946b7da76a6a83557f;0xfd6ed06be4d76789e421ff3939919a58;0x1189a0dd8802ac8c88c0e722226ebd57;0xb2208be6d9312dbbd9f2cea7a7ee9f0e;0xc5196db0e73fef99e7f73e4949272a68;0xb8a4cb94895ad43d893319b3b3bd6c47;0xb5f7d4c5e12c3cb9e1987fa9a9888908;0x3b491ccc1ba442901ba90676764f7973;0x2855c30b836f625d8382da50508f4ae7;0xa0978a2c497f4bb7494dee838379eb1a;0xe80e8e824c8410874cf46e131360f84a;0xde148d1f3f56ba933ff60e7f7f1a6476;0x1fe41e9bf8388e88f814463e3ea2915b;0x6f0aa7eefe2b5da8fe7b07dede0d323b;0x5910a4738df9f7bc8d7967b2b277ae07;0x32f3fda9538371965317166464e54379;0x843a887baae387afaaf0aecbcb940332;0x12b701ca904e660c90bf202424977414;0x88c24927ca1029eacacf34d3d3f6a1fd;0x1b0de0afd869550ad8013036363d4e1e;0x58bb7a7e857cb17d85ed9bb0b020e987;0xa5d5aa1561abd6f461cc648989b173df;0x04e9fe342051db8220157608089fdf45;0xa740d50f71625ab571275f8d8d1ffd1c;0xd53b136067b805d467a32569691ed0bf;0xf57fef03a475124ea40b1329296ce7d2;0x4ddb24972d2fc6732d380a9a9ad18b95;0x3d359de22b3c15532b574b7a7a7e28f5;0xa886b54409dd3e700967029393849690;0x335823a45b0637575b83ea6666b204f9;0x21ef226ecb48515bcb3cca42422570ed;0x2b6b621c9b23a8dd9bfd1d56567683a4;0x4c70fa9a25aa80b225acf6989886cc15;0x1aa63ea2d0ec13cbd095cc34346a099e;0x671b9886be89286fbe51ebcecef04fb1;0x5443bb22e58f1f38e5d201a8a8424b48;0xece770b66cd5cb056ce1181b1bff270f;0x9bde96e052db092752e4e8f5f5369269;0xa202f53659b6c7f659a6d58787d765d9;0x64253991a6c5e2efa62e2cc8c80986f2;0xefd9d1a174990185749edf1d1d06ee4c;0x8bfce830d25ce36ad2b0f3d5d50f68be;0x6c3406f9e6679728e604c0d8d8f4fb78;0xfffbaf71f41eebc8f4cac43d3d3f149b;0xf7ea9019b4bc9e0fb4e0282d2dc26911;0x183341b8c0259f8ac07ef73030c4875d;0xb38b55ebd1b46b7ad16632a5a5b9d88e;0x7c16782966e07d656650dbf8f8cd01af;0xcca38cd5af18dc9faf492e5b5b8d1062;0x8969972ac2956f2bc25bc8d1d1a1e67d;0xaefa346a394569b339994f9f9fb5c716;0x31cd5cbe4bcfbb164b68d162621c8a3a;0x348f7c87631b265563e95b6868d412ff;0x66b0468bb60c6eaeb6c517cccca70831];
   [0x55959eb1d0a14cd95a2ff91c4cf21a52;0xfaed87cf855d816c55488b1e81e1581c;0x0cbe0a5648accc72675c4558ccf1091a;0x52317b77faee3b0aaf0cfb833bb18e02;0xa3c613281d5001c7683b375a01e24b54;0x731cabc9f7514f53e262a0f24f17c7ae;0xe19c709707ede975f2e781b8e96dd9cf;0x8125206202c446634c42ec3d46e9911f;0x8681c5a4288b31b0b961eea231aa054f;0x023503191c3222174e1a41a52277e2ba;0x6c075aa34d856364d9f928dd637541ca;0xdfaa5143b086b11b841252e6b1a91607;0x4ee469e9521124c0fd80f3ba247e9b81;0xe8b39c1e793c70c32e8287da70a8a63f;0x2e5d391c57388bd643259e3f8bfad351;0x3df8c220a5406b931fe253486b695c2f;0x29f9dcda7d77fc05b6069ca0fcb94701;0x7d97a286a3cfa136cb24a40fa1912c0e;0x2772d59529e912609f40985d123faca1;0x352cce44d588e3cfe48a9499e3765282;0xcc0faa7f42fe515ed8d59f91513a9979;0xd685bdcace5728ad58775484286c69f7;0x877a25492692205a9e6c2f1120707412;0xc99e4ca07483049a63ecdcab040eef93;0x6ba3bf6567ca14b72cda2a421436d59a;0x32882b82ffc7941c11a996069435c6d2;0xcdf44a924ce740b4ffd85e2240e0e824;0x2318d3a7118d564e03741ad456d1ab16;0x96eadd6cc8d8e2088cb1a3c3e29419d6;0xb409ee26d74ca5aca8c878a4a59fc39d;0x9280db5ef0bca6261085214aa67a1e61;0xc6eea5022e04fb156da719e5fb52756e;0x914e38aae29795db7992a15c95d78d86;0xe40d96483190bcb149dec282bc59af25;0xd2efbbf8f6336c83c443d60d6c826e40;0x565b7d45c28a7f243338790a7f5f89b5;0x880acceb7c15dfd59027ea5fdf2ceeef;0x6fc9b9575fae5099b0eea8cb50d8d22d;0x106b18c8e053d3b835d04d61d33e1c99;0x592b94e7980d80ab3d73bc4480031348;0x6377b30117029cebd7b2ed939c29db37;0xca50af5466a837670afb5cbd37a37c74;0x79fda4b49babe51857102686e57f2bb9;0xb256eb0df31ac3957ae6bb88c3062690;0x28023c37736eedef910b5d13ed63365c;0xea869f07650e52d46098c67f52df4485;0xecd99a2c415834edb2b605533446a188;0x2a373f2e6f5ccff8df111cb6cf14d4e6;0xc4dba61b3236d90223bd5840d92597d4;0xa7ac151a253445e9f40fb5d3450c4ce3;0x17cffd0eca1ca46bc0f34ffea47d88c9;0x5f7491ccbc5be692ef5d7f68e69af645;0x628c53ec191b8d01f0bf2c208df3aa6a;0x5d4192d5a069c485a1473ecdc4ed14ff;0x065f052b24566639d22ec32c6699e50d;0x3a5c27e68f0f1c40eac151d71c2ac87f;0x3992c4129d242fbd83d6d1c12f875b98;0xa1f31031016223d0262176ff2395a9ee;0x07a4e5c62a4f77d3f523029f77439450;0x6dfcba4e439c728efef4e96e72af3097;0x212dd0be0dbf74594d6e5b7174a649ac;0xba82e76983d24bc9818e7c594b19283d;0x6996bc7c7bf836a062c06be736413720;0x3719cd5dc9bac1d8aa90d53cc101b038;0x3e3621d4b76b586e76f5d35e58c4cfc8;0x2547d68c35db3077d15ad9f830484e1b;0xc14a40c4044b8cc698841b7a8c11e13e;0xf7a86d74c3e85cf415190ff55cca205b;0xd4b0bed3d2650aba166d15210a1b8b4d;0x70d2483de57a7cae8b7520e47cba5449;0xf923643b9776b2913c5f0b08b24ccbfb;0x9baf37d78e6d3f90cce027283fbf6191;0x30bd289be3f5b60b5fb3d7a3b6422468;0xf8d884d6996fa37b1b52cabba396baa6;0x4a8e6fdb6a7560ee61b4713360909c36;0x2d93dae84513b82b2a321e29b85740b6;0xbf1301b6b5af1e0d3ab73f631e2d5ed7;0x406f60a6068fcaa5d4c6f747caf87021;0x49408c2f785e531308a3f125533d0fd1;0x5e8f7121b242f778c850bedbf7408718;0x4630658d22d9ac9c06e8346bac61952c;0xae83f9935be5dc5f286ab3b1dcc93313;0x6528b62a3354fad2059c2ebffab03e3a;0x24bc36613bc2219df657184b21923f46;0x5cba7238ae70d56f864aff7ed53765a2;0x72e74b24f9485eb9c56f61415ecdb6f3;0x97113d81c6c1f3e2abbc6270f34e688b;0xaf78197e55fccdb50f677202cd13424e;0x0d45eabb46b5dd98405184ebdd2b7847;0xb94c049d91f97834e899fc4f78b4bbda;0x45fe867930f29f616fffb47d9fcc06cb;0x768d4d16c12c1a97595be3c81a23b144;0x43a1835214a4f958bdd17751f955e3c6;0x51ff9883e8c508f7c61b7b95081c1de5;0x854f26503aa0024dd0766eb4020796a8;0x5ae577138a26b35654643c52b3ae80af;0x7c6c426badd6b0dcec2965bcb04b5d53;0xd0dab8e1ea014e948a5997a84ef58cfa;0x08d40c6470c8885cfb68c7d1881f0ead;0x0591e6df367d55c4bb39433a553476ea;0xb8b7e4709fe069decf943dfc696eca87;0x0f70e9a25a87ff8f0e4bc54eff5c9afd;0x7a3347408980d6e53e07a690d6d2b85e;0xff7c6110b320d4a8ee71c824d4d52ef6;0xda3bb79c86fbe4df3f2b11dce49d60ed;0xdbc0577188e2f5351826d06ff54711b0;0xf2398babf5950930ae204ccf09fe56b1;0x999a34ce925f1d8782fa668d1dc8832b;0xa9271c5571aaab8cdd49b12eab8aa743;0x546e7e5cdeb85d337d2238af5d286b0f;0x95243e98daf3d1f5e5a623d5d1398a31;0x686d5c9175e1274a45cdaa54279b467d;0x1cd5129ea8ff1fca528c08391fcf1583;0x6a585f8869d3055d0bd7ebf105eca4c7;0x0e8b094f549eee65294604fdee86eba0;0x937b3bb3fea5b7cc3788e0f9b7a06f3c;0xa8dcfcb87fb3ba66fa44709dba50d61e;0xcfc1498b50d562a3b1c21f8762970a9e;0xc284a3301660bf3bf1939b6cbfbc72d9;0xcbab4fb968b1268d2df69d0e26790d29;0x8e55c9c05843b9ec42092973b9b50be2;0x3373cb6ff1de85f636a457b585efb78f;0x15fafe17d62e867c8ee90e5b860a6a73;0x89f12c06720cce3fb72a2beccef69fb2;0xd121580ce4185f7ead54561b5f2ffda7;0x1a8a17b58ca979f380a2cb157956f08e;0x9861d4239c460c6da5f7a73e0c12f276;0xce3aa9665ecc734996cfde34734d7bc3;0x1b71f75882b06819a7af0aa6688c81d3;0xe3a9738e1bdfcb62bcfdc01dcb1a3b75;0x9df032fcaa3b59a91ecee4045926849c;0x8c60cad944719bfb0c1368d69bc2e958;0x6e3259ba51b7417397e369784102a370;0x66e655de217fc92f6c8baea9c91daddd;0x58d0740a961491411a7e7df791d96215;0x9a54d73a80742e7aebede69b2e6510cc;0x47cb85602cc0bd7621e5f5d8bdbbe471;0x18bf14ac909b5be4ceb88ab05b211234;0xad4d1a6749ceefa2417d33a7ef64a0f4;0x1ee01187b4cd3ddd1c96499c3db8f739;0xdc64b2b7a2ad82e6ed05d2f0820485e0;0xa462f6ee371f76149d1835c576a1df04;0x34d72ea9db91f225c387552af2ac23df;0xfd496209af12f6bfa06b8981f6a2cc4c;0x9fc531e5b6097bbe50d4a5a17b516626;0x8fae292d565aa8066504e8c0a86f7abf;0xed227ac14f41250795bbc4e0259cd0d5;0xf1f7685fe7be3acdc737ccd93a53c556;0xe5f676a53f89ad5b6ed30331ad83de78;0x1f1bf16abad42c373b9b882f2c628664;0x82ebc39610ef759e25556c2b754402f8;0xf00c88b2e9a72b27e03a0d6a2b89b40b;0xe63895512da29ea607c483279e2e4d9f;0xc37f43dd1879aed1d69e5adfae660384;0xef1779d853730710dba1854507eb326f;0x1d2ef273a6e60e207581c98a0e1564de;0xc0b1a0290a529d2cbf89dac99dcb9063;0xf6538d99cdf14d1e3214ce464d105106;0x4b758f36646c710446b9b080714aed6b;0xeeec99355d6a16fafcac44f616314332;0xe9487cf377256129098f46696172d762;0xe252936315c6da889bf001aedac04a28;0x16341de3c405b581e7fe8e4db5a7f994;0x53ca9b9af4f72ae088013a302a6bff5f;0xdd9f525aacb4930cca08134393def4bd;0x00000000000000000000000000000000;0x01fbe0ed0e1911ea270dc1b311da715d;0x8bc42f1f6e3eec28f9306a49ec817d08;0xf3c26b46fb8c18da892d8d7c182427ec;0xde51b1aebe9fa0f1a31f9355a073675a;0x57a09da8cc936ece1435b8b96e85f8e8;0x9e3ed108b8106a5477d964126a8b177b;0x386924ff933d3e57a4db10723e5d2ac5;0xbee8e15bbbb60fe71dbafed00ff72f8a;0x8a3fcff26027fdc2de3dabfafd5b0c55;0x4f1f89045c08352ada8d320935a4eadc;0xa23df3c51349102d4f36f6e910383a09;0x6142b0180b30befc99a8ac36be5e398d;0x9c0bd211a422484339c325b748fcf5c1;0x2689357827f0038ab84d59ee03e5ddfc;0x60b950f50529af16bea56d85af8448d0;0x7806445995b2f4f2701de735f4a55ae4;0xd9f5546894d0d722563c91cad730f30a;0x3c0322cdab597a7938ef92fb7ab32d72;0xfb1667228b44908672454aad903b2941;0xc71545ef201deaff4aaad856ea880433;0xfe8781fdbd39c542c97c0997c50f5fab;0x36e22db0c7a3d0328d9d148fd0dbc165;0xa008f0dc0f7b323a012cb74c324fd8b3;0x5004786ee6dc191de116ba2619c66cb8;0xf59d6e6ddfda7ee35b034e507ebdc2e1;0xaae9ffa163819871b45e3138982734a4;0xd3145b15f82a7d69e34e17be7d581f1d;0x4194804b0896db4ff3cb36f4db22017c;0x7fa2a19fbffd8321853ee5aa83e6ceb4;0xa5991603390667feba15f476677bae59;0xb063e814ef28e18234fcfa2de171c42a;0x48bb6cc2764742f92fae309642e77e8c;0x20d6305303a665b36a639ac2657c38f1;0xf4668e80d1c36f097c0e8fe36f67b3bc;0x0b1aef9062e3bba1927f47c7bbb29d4a;0xd80eb4859ac9c6c871315079c6ea8257;0xb7c70dd2c5679651c1dff8b29632507a;0xb19808f9e131f06813f13b9ef0abb577;0xd54b5e3edc7c1b503160d4921bc1fa10;0x22e3334a1f9447a42479db67470bda4b;0x4cd16af04e2306d7b39ab21f0609793b;0x3fcdc139b972498451f812ed491ebe95;0x7543aee2d307296a304c63de298e22a3;0x1944f4419e824a0ee9b54b034afb6369;0x74b84e0fdd1e38801741a26d385453fe;0x13a5fb3cf278e0455cc7cd77e0938f7e;0xd77e5d27c04e39477f7a953739b618aa;0x84b4c6bd34b913a7f77baf0713dde7f5;0x7bc8a7ad8799c70f190a6723c708c903;0x425a63bf1abde8b29adcb6e2e88f929b;0x1190f825ee4ac25212dd8cd2c2e46dc4;0xe067907a09f4f89fd5ea400bf8b7a892;0x7129a8d0eb636d44ac78e1576d602514;0x3146c876edeca7e178be1610a7985535;0x671db5332f66d8c54b866f1ad8c7dc80;0xc865ac4d7a9a157044e11d1815d49ece;0x4d2a8a1d403a173d949773ac17d30866;0xfcb282e4a10be75587664832e778bd11;0xb3ad0be0fd03d27f5deb7a3bd2dc57cd;0x440566943eeb8e8b48f275ce8e167796;0xc52046f63c2fc8e804b099f3c8ffe689;0x14011efad8379796a9e4cfe897d01b2e;0x2bccdfc36145de12f81cdd05decea5bb;0x125e1bd1fc61f1af7bca0cc4f149fe23;0xb63ced3fcb7e87bbe6d2390187e82127;0xbcdde242a7842df053a0bf752d80cd30;0x8d9b2a344a688a112b1ea9658a189805;0x90b5d847ec8e84315e9f60ef840dfcdb;0x7776adfbcf350b7d7e56227b0bf9c019;0x94dfde75d4eac01fc2abe266c0e3fb6c;0xe7c375bc23bb8f4c20c942948ff43cc2;0x5b1e97fe843fa2bc7369fde1a274f1f2;0x64d356c73d4deb382291ef0ceb6a4f67;0x0ae10f7d6cfaaa4bb5728674aa68ec17;0xab121f4c6d98899b9353f08b89fd45f9;0x03cee3f4122b33fd6917801633ad93e7;0x80dec08f0cdd57896b4f2d8e5733e042;0x8310237b1ef664740258ad98649e73a5;0xa657f5f72b2d5403d302746054d63dbe;0x092fec897ed199b6dc65066299c57ff0;0xacb6fa8a47d7fe486670f214febed1a9;0x2c683a054b0aa9c10d3fdf9aa98d31eb;0x7e594172b1e492cba2332419923cbfe9;0x2fa6d9f159219a3c64285f8c9a20a20c;0xb5f20ecbd955b4468fc5b917b445b2c0;0x3ba7c70b81160daacdcc90640df0b922;0xbd2602afa99d3c1a74ad7ec63c5abc6d;0x046a06323864442e9c34828944ee07b7;0xeb7d7fea6b17433e479507cc430535d8;0xbb7907848dcb5a23a683bdea5ac35960];
   [0x791a2d6dc93b13e1795880807580b736;0x9158cbc6fe1fb15091d61a1a1d1a8933;0x9909d2bc887933c299e9dcdc3bdc079c;0xb98eb69793227ecfb9154242a3427a65;0x714b3417bf5d91737167464653463999;0xeac77154cbdc6374eaf14a4a804afc5e;0xd7d979520f62abc6d76c56561556f6ef;0x959126fbc52cf019952879790e79ce85;0x5505bd019f359d375565bbbbd8bb03d6;0xdae2278b3c4be99eda739b9b549b5e3a;0xdb418d154237681ddbadf3f320f33ff6;0xb51642d0de77bd14b5d4e7e796e7b37c;0x3f9b9ff9384609773fe2cccc7dccc8ea;0x54a6179fe1491cb454bbd3d3acd3621a;0x7dd3c050f20852a87da6e3e366e3f080;0xd55ceeadf39a6a03d5138686fd8634b4;0xbd475baaa8113f86bdeb2121b0213dd3;0xa92c84637feeb928a96b0d0def0da5f8;0xfeacae9d1c23e5dafe716666df666475;0x3b5272c40375483e3b1cafaf6eaf8f5c;0x1d996c2ddfe585bf1d6182820d827748;0x36692c1d305c0a66360362622f622789;0x38744fa581f1087838bd1717f2172ccb;0x07efd05cb9b7010f075fdbdb8fdbe421;0x1bd516ef182e05331be03131f631f2a5;0xfbc6e93e596c2510fb516d6db86d420f;0x70e89e89c12110f070b92e2e272e5855;0x89abe04864b5f425899793937793d801;0x4a1946d3bc28d94d4a7be9e93de9b6c5;0xaec3543fc659b827ae34d6d660d641d9;0x3d1e0806c4bec8b23d9d1c1c951c0ab1;0x2975d7cf13414e1c291d3030ca30929a;0x8a8ddd29e631b4638a362b2beb2b7b96;0xcdafc52369302f76cd520f0f970f6586;0x416e62c848ca1b9941e5979787979bfd;0xce89f842ebb46f30cef3b7b70bb7c611;0x16ee48362b07476b16fffcfcb7fc5a70;0x6cd2583a60b814cc6c06c4c45ec44ed1;0x1f1cfbd2231d447a1f1e5252e552b513;0xe013ffd141422023e0b15c5c4e5cb0aa;0xf5db8a86e8c1270ef5ef18186518494d;0xb07c05739b387ddeb0f4ececf1ec9506;0xde2bcab60778a8d7de8df8f847f8198c;0x03263d618284404603a1b8b89cb8a397;0xd036a90eb6d5aac9d0338d8d9a8d12ce;0x8e443014dd02f52a8ec84848f8483c20;0x23a1594a99df0d4b235d26260426de6e;0x0ad48e858a9e43570a401616ce164cf4;0xf397f0442f0aa782f36eabab9eabcca0;0x064c7ac2c7cb808c0681b3b3fbb385ed;0xdf88602879042954df53909033907840;0x4df6968f059fd8424d243232b23252e4;0x98aa7822f605b2419837b4b44fb46650;0x9714b10439d431dc9757a9a9e6a90cde;0xade5695e44ddf861ad956e6efc6ee24e;0x15c87557a983072d155e44442b44f9e7;0xa25ba0788b0c7bfca2f57373557388c0;0xaba9139c831678edab14dddd07dd67a3;0xc0949bfa5a196d2ec04dc2c2d6c2cd53;0xb6307fb15cf3fd52b6755f5f0a5f10eb;0x5349c7c358fe1dbb53e408082308863b;0xed28a108726b627bedae91910f91187f;0xc13731642465ecadc193aaaaa2aaac9f;0xe1b0554f3f3ea1a0e16f34343a34d166;0x62cf3b82d11516d262b8b1b183b14593;0x244e891620680c442402fdfd8bfd3a4f;0xe9e14c3549582332e950f2f21cf25fc9;0x6520ebde68a217dd65e76a6a0c6aa1b2;0xec8b0b960c17e3f8ec70f9f97bf979b3;0x5d54a47be9531fa55d5a7d7dfe7d8d79;0x26cb1ee9dc90cd81267d2d2d632df814;0xbe6166cb2a957fc0be4a99992c999e44;0x2124ceb56527cc8e2122f6f6ecf61c35;0x4bbaec4dc25458ce4ba581814981d709;0x489cd12c40d0188848043939d539749e;0xca40157fd0872e79ca0dd4d418d481a7;0xf75e1d791439e6cbf790c8c88dc88b16;0x7c706ace8c74d32b7c788b8b128b914c;0xff0f0403625f6459ffaf0e0eab0e05b9;0x2087642b1b5b4d0d20fc9e9e989e7df9;0xd1950390c8a92b4ad1ede5e5eee57302;0x8533140f29e037fe8556363642361118;0x583ee3d8ac1cdf6f587a76769976ab03;0x493f7bb23eac990b49da5151a1511552;0xfa6543a02710a493fa8f0505cc0523c3;0x87b683f0d518f63b8729e6e6aae6d343;0x2768b477a2ec4c0227a34545174599d8;0xe842e6ab3724a2b1e88e9a9a689a3e05;0xf478201896bda68df431707011702881;0x5abb742750e41eaa5a05a6a671a66958;0x6606d6bfea26579b6646d2d290d20225;0xf0b1cd25ad8ee7c4f0cf131302136f37;0xcbe3bfe1aefbaffacbd3bcbc6cbce06b;0x0e1d63b8b1ad021e0ebe7575dd750b42;0xe296682ebdbae1e6e2ce8c8ca68c72f1;0x57802afe63cd5cf2571a6b6b306bc18d;0xc45d76c7612a2c67c4b3a1a1c5a18ae5;0x9b8c45437481f2079b960c0cd30cc5c7;0xee0e9c69f0ef223dee0f29299329bbe8;0x1a76bc71665284b01a3e595982599369;0x37ca86834e208be537dd0a0a5b0a4645;0x2e9a0793aaf64f132e42ebeb45eb76bb;0x69b81f9925f7d4066926cfcf39cf68ab;0x8b2e77b7984d35e08be843439f431a5a;0xaf60fea1b82539a4afeabebe14be2015;0xc2110c05a6e1acebc23212123e120f08;0x7f5657af0ef0936d7fd933338e3332db;0x6483414016de965e643902027802c07e;0x45a78ff573f95ad0451bf4f494f4dc4b;0x146bdfc9d7ff86ae14802c2c5f2c982b;0xfd8a93fc9ea7a59cfdd0dede43dec7e2;0xac46c3c03aa179e2ac4b060688068382;0x8615296eab6477b886f78e8ede8eb28f;0x76a4e44b06ea907c76389d9ddc9dddb8;0x43ebf537b432da5c439a47476f4759a6;0x506ffaa2da7a5dfd5045b0b0bfb025ac;0x28d67d516d3dcf9f28c35858be58f356;0xaa0ab902fd6af96eaacab5b573b5066f;0x5e72991a6bd75fe35efbc5c562c52eee;0xdd0df7d785fce891dd2c4040db40ba1b;0xbb0b21686fdabf0abb6a92924b92b83e;0x96b71b9a47a8b05f9689c1c192c16d12;0x056a47a3454fc0ca05200b0b670b267a;0x7b9fba9235c3d2247b2750509d50756d;0xf6fdb7e76a456748f64ea0a0f9a0eada;0x2bf04030efb98fd92b62e0e022e050c1;0x09f2b3e4081a031109e1aeae52aeef63;0xc77b4ba6e3ae6c21c712191959192972;0x4681b294f17d1a9646ba4c4c084c7fdc;0x0d3b5ed9332942580d1fcdcd41cda8d5;0x13840f956e4887a113dff7f7d0f77c0a;0x61e906e353915694611909091f09e604;0x01a3aa9e7e7c818301de6868746861cc;0xefad36f78e93a3beefd14141e741da24;0x8d620d755f86b56c8d69f0f064f09fb7;0xd310946f3451ea8fd39235350635b159;0xbce4f134d66dbe05bc354949c4495c1f;0xf11267bbd3f26647f1117b7b767b0efb;0x32a0c1200b6f4b2f32fd01013c01603f;0x5cf70ee5972f9e265c8415158a15ecb5;0x028597fffcf8c1c5027fd0d0e8d0c25b;0xb1dfafede544fc5db12a84848584f4ca;0x562380601db1dd7156c403034403a041;0x51cc503ca406dc7e519bd8d8cbd84460;0xc966281e52036e3fc9ac6c6c846c2230;0xd67ad3cc711e2a45d6b23e3e613e9723;0x4ed0abee871b98044e858a8a2e8af173;0xc8c582802c7fefbcc8720404f00443fc;0xa0de378777f4ba39a08aa3a3bda34a9b;0x3186fc4189eb0b69315cb9b9a0b9c3a8;0x2202f3d4e7a38cc822834e4e704ebfa2;0xa5b4702432bb7af3a5aaa8a8daa86ce1;0x174de2a8557bc6e817219494c3943bbc;0x33036bbe7513caac33236969486901f3;0x94328c65bb50719a94f611117a11af49;0xeb64dbcab5a0e2f7eb2f2222f4229d92;0x8490be91579cb67d84885e5e365e70d4;0x0851197a76668292083fc6c626c68eaf;0x25ed23885e148dc725dc9595ff955b83;0xf9437ec1a594e4d5f92ebdbd50bd8054;0x39d7e53bff8d89fb39637f7f867f4d07;0x604aac7d2dedd71760c761616b6187c8;0xb2f9928c67c0bc1bb28b3c3c193c575d;0xd4ff44338de6eb80d4cdeeee89ee5578;0x6ff4655be23c548a6fa77c7cc27ced46;0x00000000000000000000000000000000;0x6d71f2a41ec4954f6dd8acac2aac2f1d;0xa17d9d1909883bbaa154cbcbc9cb2b57;0x1227a50b1034062212019f9fa49f1dc6;0xd867b074c0b3285bd80c4b4bbc4b9c61;0xa3f80ae6f570fa7fa32b1b1b211be90c;0xa417daba4cc7fb70a474c0c0aec00d2d;0xcf2a52dc95c8eeb3cf2ddfdf7fdfa7dd;0x9a2fefdd0afd73849a486464a764a40b;0xcc0c6fbd174caef5cc8c6767e367044a;0x52ea6d5d26829c38523a60605760e7f7;0x1c3ac6b3a199043c1cbfeaea79ea1684;0x2f39ad0dd48ace902f9c838331831777;0x7ef5fd31708c12ee7e075b5bfa5b5317;0x93dd5c3902e7709593a9cacaf5ca4b68;0x42485fa9ca4e5bdf42442f2f1b2f386a;0xb35a381219bc3d98b35554546d543691;0x18f32b8e9aaa4575184189896a895132;0xb82d1c09ed5eff4cb8cb2a2ad72a1ba9;0xfc293962e0db241ffc0eb6b637b6a62e;0x4404256b0d85db5344c59c9ce09cbd87;0xe65f85138689a0afe630efefb5ef3547;0x8cc1a7eb21fa34ef8cb798981098fe7b;0xc6d8e1389dd2eda2c6cc71712d7148be;0x636c911caf6997516366d9d9f7d9245f;0xbfc2cc5554e9fe43bf94f1f158f1ff88;0xf2345ada51762601f2b0c3c3eac3ad6c;0x2c1f906c560e8ed62c3d3b3bad3bb4e0;0x1101986a92b0466411a027273827be51;0x73cea3e843a550b673189696bb96fbc2;0xdcae5d49fb806912dcf22828af28dbd7;0xd9c41aeabecfa9d8d9d22323c823fdad;0x927ef6a77c9bf1169277a2a281a22aa4;0x3e383567463a88f43e3ca4a409a4a926;0xd2b33ef14a2d6b0cd24c5d5d725dd095;0x599d4946d2605eec59a41e1eed1ecacf;0x7582d92a846ed03a7599252540257e2f;0x19508110e4d6c4f6199fe1e11ee130fe;0xb4b5e84ea00b3c97b40a8f8fe28fd2b0;0x81faf93212d376b781a85555515556ae;0xe4da12ec7a71616ae44f3f3f5d3ff71c;0xe579b872040de0e9e5915757295796d0;0x0fbec926cfd1839d0f601d1da91d6a8e;0x4722180a8f019b15476424247c241e10;0x9c63951fcd36f3089cc9d7d75cd721e6;0x2a53eaae91c50e5a2abc88885688310d;0xa88f2efd019238aba8b565659b65c434;0x5b18deb92e989f295bdbcece05ce0894;0x8fe79a8aa37e74a98f1620208c205dec;0x04c9ed3d3b33414904fe6363136347b6;0xa6924d45b03f3ab5a60b10104610cf76;0x726d09763dd9d13572c6fefecffe9a0e;0xbaa88bf611a63e89bab4fafa3ffad9f2;0x302556dff7978aea3082d1d1d4d1a264;0x4c553c117be359c14cfa5a5ac65a3328;0x82dcc453905736f18209ededcdedf539;0x6a9e22f8a77394406a877777a577cb3c;0x88084ad61ac975a68849fbfb03fbb9cd;0x3cbda298bac249313c437474e1746b7d;0x6e57cfc59c40d5096e791414b6148c8a;0x0b77241bf4e2c2d40b9e7e7eba7e2d38;0x9ee602e031ce32cd9eb60707b407e3bd;0x681bb5075b8b558568f8a7a74da70967;0x67a57c21945ad6186798babae4ba63e9;0xc5fedc591f56ade4c56dc9c9b1c9eb29;0x742173b4fa1251b974474d4d344d1fe3;0x40cdc85636b69a1a403bfffff3fffa31;0x0c98f4474d55c3db0cc1a5a535a5c919;0xe7fc2f8df8f5212ce7ee8787c187548b;0x9dc03f81b34a728b9d17bfbf28bf402a;0x90fb6158806330d3900872726972e8ff;0x7a3c100c4bbf53a77af93838e93814a1;0x3af1d85a7d09c9bd3ac2c7c71ac7ee90;0x354f117cb2d84a2035a2dadab3da841e;0x34ecbbe2cca4cba3347cb2b2c7b2e5d2;0x9f45a87e4fb2b34e9f686f6fc06f8271;0xb793d52f228f7cd1b7ab37377e377127;0xf8e0d45fdbe86556f8f0d5d524d5e198;0x4f730170f96719874f5be2e25ae290bf;0x6b3d8866d90f15c36b591f1fd11faaf0;0x837f6ecdee2bb77283d78585b98594f5;0x5fd1338415abde605f25adad16ad4f22;0xa731e7dbce43bb36a7d578783278aeba;0x1ebf514c5d61c5f91ec03a3a913ad4df;0x10a232f4ecccc7e7107e4f4f4c4fdf9d;0xc3b2a69bd89d2d68c3ec7a7a4a7a6ec4;0x78b987f3b74792627886e8e801e8d6fa;0x2dbc3af228720f552de35353d953d52c;0x77074ed5789611ff77e6f5f5a8f5bc74;0xe335c2b0c3c66065e310e4e4d2e4133d;0x805953ac6caff73480763d3d253d3762];
   [0x0aaf456ef67356fb471cd5c8662c64b5;0xca5268e5245bd908eb1ee05eac6b2f0a;0xf380f6752e6ac5cb7858d0cf08958689;0x174ecb7006aeb541718310ceddeb67c0;0x337ddbfefc424a38d45ae559c2d2cd36;0x5f28ebaf31b588b3f8f23923e399f0ef;0xa3b19b839274301f05b8b740be362068;0x373b27ad21a2d788433df8f7fe149aaa;0x2adaa9b3d17f343275a23df145d399df;0xc98129490d13c07c14a599c3bdd88063;0x670a4a5b9dbc225c3edd9f7848b73c4b;0xd3f51aa80966a7024ae638f62b6a7be3;0x634cb608405cbfeca9ba82d674716bd7;0x8451caa141d0d6125fda3b4ab0bc25f7;0xf7c60a26f38a587bef3fcd613453d115;0x3c645da771e9375f5148bbf597e89b38;0xea2784380357bbc1d9a008678f94d260;0x6529349312cc8d04940f702f56d4f605;0xd0265b04202ebe76b55d416b3ad9d48a;0x9e25f94045a5b16c01999a7f260ede77;0x18574d298b05c826f4914e6288d131ce;0xf4154b8adac2410f1084b4fc25e07e7c;0xaf7b5c763697540c7f119071fabfd90f;0xcc37ea7e76cbebe0d6ab12a78eceb2d8;0x7aebc4456d61c1e608425a7ef3703f3e;0x83c4775eb57852d637065f799dc9dd02;0x9df6b8ec6ceda818fe22e3e237bd711e;0x81e709963a08fd8e9dd4b02e83aa174c;0xad5822beb9e7fb54d5c37f26e4dc1341;0xa91edeed640766e442a46288d81a44dd;0xfc99702ca3c1b8acfd4a8e635dafd087;0x7397c087b25a8e69b0e5f62b84eff4e2;0xb0b9aca0493a18eee35cba205f1b1034;0x77d13cd46fba13d92782eb85b829a37e;0xa5d41918c0e402f7380d45b99c93bdba;0x468f99e21c88f6b9590ae18b6498a406;0x10db768ff2063185195f74fdf09e9f35;0x2b2a96d77747821e20cbab3b4a03fcf8;0x87828b0d6898cf66a06142d7a10f8a9e;0xf92fb31bd81993303f4405076eb9e23c;0xd8aa60a2592d47d558937bf442967a71;0x801736f29c304ba2c8bd26e48c7a726b;0x34e8660108eacefcbc86816aefa735c3;0x315ea5367332e5607e880a0edcb10778;0x6f8671fde4bfdbffd313a5e730f892b0;0x4dd0e3e84cc3166e4b7fa2890d64a594;0xd59098335bf695ea7753ca0f09cfe631;0xa60758b4e9ac1b83c7b63c248d2012d3;0xba16e9cebf494e15a4406fe839377481;0x62bc896ce66409c0fcd3141c7ba10ef0;0x9a63051398452cdc96fe87d11ac889eb;0x616fc8c0cf2c10b403686d816a12a199;0x5d0b9567bec527eb5220d674fdfa3aa1;0xa8eee189c23fd0c817cdf442d7ca21fa;0x98407bdb173583843c2c688604ab43a5;0x2185d3b98134d4e567d77ef32c2f984d;0x6da50f356bcf74a779c14ab02e9b58fe;0xfafcf2b7f1518a44c0ff7c9a7f0a4d55;0x1de18e1ef0dde3ba369fc506bbc70375;0xe2abbf9e7a544262346e32f8f7db7c9b;0x486620df371b3df2897129ed3e72972f;0x931f01d1477e63532e592b846d574237;0xb36aed0c6072019a1ce7c3bd4ea8bf5d;0x57a4d00948b67110153c03bc9bd65e14;0x7044812b9b12971d4f5e8fb6955c5b8b;0x19a7724d2d3d7e0aa1f8d8a8870154e9;0x6e764e9942876dd3867a332d3f28f797;0xbc736b55edd97cfd99f59d111b92e953;0x3d9462c3d7d1817304212d3f9838fe1f;0x13083723db4e28f1e6e40d60e12d305c;0x8672b469cea0794af508d41daedfefb9;0xdb79210e70655ea1a72802695325d518;0x4a455e17b86b92aa23a3c6ba20115d61;0x03d341ac29481974ffbb799d11b3af69;0x328de49a5a7afc1481337393cd02a811;0xbbe6d6aa1971f839f129f92236e711a6;0x477fa686bab040950c6377416b48c121;0x594d69346325ba5bc547cbdac13c6d3d;0x7ead3816b0815c569f2547d0cfb668a2;0xe4ce3d0528c4708a09dbc001d57ee149;0xc10d12ef741039dff96ba35cc5972e98;0x455cd84e35c0efcda6b19816752b0b6f;0x40ea1b794e18c45164bf1372463d39d4;0x9c068788cad51e34ab4b7528386d1439;0x2d4f144c25d7b0f61d7e59c268a6612a;0xda891e6ad65de88df24194a35cf5b03f;0x28f9d77b5e0f9b6adf70d2a65bb05391;0xc0fd2d8bd2288ff3ac023596ca474bbf;0x762103b0c982a5f572eb7d4fb7f9c659;0xdf3fdd5dad85c311304f1fc76fe38284;0x8d2dce639eeb999de77d971fc723ee2b;0x8b484cf8cc7bab75dac865e6e58673f9;0x156db5b889de1a19db51ff99c388ad8e;0x5b6e17fcec5515036f95248ddf5fa773;0x66fa753f3b8494706bb409b24767596c;0xb50f6f9732e23372215231446c0d228f;0xe088c156f524ed3a9ebcddafe9b8b6d5;0x6c553051cdf7c28b2ca8dc7a214b3dd9;0xa241a4e7344c863350d1218ab1e6454f;0xd460a757fdce23c6223a5cc5061f8316;0x5a9e28984a6da32f3afcb247d08fc254;0xbfa02af9c4916589664ee48c0a21463a;0x78c8ba8de2116ebea290b529ed13f570;0x1e32cfb2d995facec924bc9baa74ac1c;0x0795bdfff4a884c468dc64332d75f8f5;0x8234483a1340e4fa626fc9b39219b825;0x6813cc0210175f3bbbcfc1d41d8d6a45;0x12f808477d769eddb38d9baaeefd557b;0x58bd5650c51d0c77902e5d10ceec081a;0x8f0eb0ab119b36c54daf7848d9402465;0xe178fe32531c5b16cbd54b65e668d3f2;0x36cb18c9879a61a416546e3df1c4ff8d;0x74027d7846f20aadd8399218a99a0c17;0xff4a31808a89a1d802f1f7fe4c1c7fee;0x3a01df3c237905b76cfd490cb54d06ea;0x793885e94429d892f7f923e3e2c39057;0xdd1ca39522f56c499a9df090718048ca;0x547791a561fe6864ea877a218a65f17d;0x22569215a87ccd91986c076e3d9c3724;0x05b6c3377bd82b9cc20e8b64331632bb;0x889b0d54e533b20125731c7bf435dc90;0x0665829b529032e83db5f2f922a59dd2;0x53e22c5a9556eca0825b1e12a7100988;0x957a834a15ee51bb13ecd97d4ff2dfe5;0xe9f4c5942a1fa2b5261b71fa9e277d09;0xec4206a351c78929e415fa9ead314fb2;0x9759fd829a9efee3b93e362a519115ab;0xd1d664608616085ae034d7a13509b1ad;0x69e3f366b62fe917eea6571e125d0f62;0x6a30b2ca9f67f063111d2e8303eea00b;0x43395ad56750dd259b046aef578e96bd;0x411a241de820727d31d685b849ed5cf3;0xae8b631290afe2202a7806bbf56fbc28;0x0ccac7f5a4e364137aa927314489f967;0x7c8e46de3ff1f30e35f7a887d1d5a2ec;0x5ed8d4cb978d3e9fad9bafe9ec4995c8;0x44ace72a93f859e1f3d80edc7afb6e48;0x25c32fea5cd44955f0b0635d10e9cfd1;0x097c04c2df3b4f8fb8a7ac55779fcbdc;0xbd8354314be1cad1cc9c0bdb14428c74;0x9fd5c624e39d074054f00cb529debb50;0x2e9c55e00c9fa982e2c5205f7915ce43;0x1b840c85a24dd1520b2a37ff99629ea7;0xd7b3e6fbd4863ab2dd81255817ac2c7f;0x8ab8739c6a431d598fa1f32cea5616de;0x0d3af89102dbd23f2fc0b1fb4b599c40;0x50316df6bc1ef5d47de0678fb6a3a6e1;0x2433108efaecff79a5d9f5971f39aaf6;0xf270c911885273e72d3146050745e3ae;0x3822a1f4ac09aaefc62fa65bab2ecca4;0x7b1bfb21cb5977ca5d2bccb4fca05a19;0xa192e54b1d049f47af6a5817a055ea26;0xbe50159d62a9d3a53327724605f1231d;0xa7f767d04f94adaf92dfaaee82f077f4;0x99b044bfb10d35a86945fe4c0b7b2682;0xf1a388bda11a6a93d28a3f9816f64cc7;0xebd7bb5ca56f0ded8cc99ead8044b747;0x39d29e900a311cc393463091a4fea983;0xb72c115fbd929c2a8b80de13726ee8c1;0x1c11b17a56e5559663f653ccb4176652;0x01f03f64a638b62c556996ca0fd06527;0xef91470f788f905d1bae8303bc82e0db;0x1fc2f0d67fad4ce29c4d2a51a5a4c93b;0x92ef3eb5e146d57f7b30bd4e62872710;0x1a7433e10475677e5e43a13596b2fb80;0x00000000000000000000000000000000;0x85a1f5c5e7e8603e0ab3ad80bf6c40d0;0x5cfbaa0318fd91c7074940bef22a5f86;0xedb239c7f7ff3f05b17c6c54a2e12a95;0x5654ef6dee8ec73c4055957694063b33;0xc32e6c27fb60968753b94c0bdbf4e4d6;0x0f1986598dab7d6785125eac553a560e;0xe804faf08c2714997372e73091f7182e;0xc2de53435d5820ab06d0dac1d42481f1;0xd95a5fc6ff15f1f90dfaed3e4d461f56;0xe6ed43cda7b4dfd2a3092f56cb1d2b07;0xb6dc2e3b1baa2a06dee948d97dbe8de6;0x112b49eb543e87a94c36e237ff4efa12;0xc698af1080b8bd1b91b7c76fe8e2d66d;0x5587aec1c7c6de48bfeeeceb85b5945a;0x948abc2eb3d6e79746854fb74022bac2;0xb14993c4ef02aec2b6352cea50cb7513;0x4bb561731e53248676ca50702fc13846;0xb9c5a862960157615bfb16752884dbe8;0x4ff39d20c3b3b936e1ad4dde13076fda;0xf636354255b2ee57ba565bab3b83b432;0x9b933a773e7d9af0c397111b1518eccc;0xd20525ccaf5e112e1f8fae3c24ba1ec4;0x7f5d077216b9ea7aca4cd11ac0660d85;0xdecfe2390bbd753d6526890d6033e7a3;0x75f2421ce0cabc818d5004d2a64a6930;0x149d8adc2fe6ac358e386953cc58c8a9;0x2075ecdd270c62c932bee83923fffd6a;0xdcec9cf184cdda65cff4665a7e502ded;0xaca81dda1fdf4d7880aae9eceb0c7666;0xab3da025eb77c9bce8768ddfc6798e93;0xf8df8c7f7e21251c6a2d93cd6169871b;0xfb0ccdd357693c689596ea5070da2872;0xcdc7d51ad0f35dcc83c2846d811ed7ff;0xf053b7d90722dcbf87e3a952192629e0;0xee61786bdeb726714ec715c9b35285fc;0xce1494b6f9bb44b87c79fdf090ad7896;0xe53e02618efcc6a65cb256cbdaae846e;0x7d7e79ba99c94522609e3e4dde05c7cb;0xb83597063039e14d0e9280bf2754becf;0x0446fc53dde09db097671dae3cc6579c;0xaacd9f414d4f7f90bd1f1b15c9a9ebb4;0xf5e574ee7cfaf72345ed22362a301b5b;0xc768907426800b37c4de51a5e732b34a;0xa062da2fbb3c296bfa03ceddaf858f01;0x42c965b1c1686b09ce6dfc25585ef39a;0xcba2578182636f24be777694a3bb4a2d;0x71b4be4f3d2a21311a37197c9a8c3eac;0xe35b80fadc6cf44e6107a432f80b19bc;0xfd694f4805f90e80a82318a9527fb5a0;0x90cc407d6e367a27d1e252197ce4ed5e;0x02237ec88f70af58aad2ef571e63ca4e;0x26106e46759c50210f0b1ac0015a60b8;0x96a9c2e63ca648cfec57a0e05e41708c;0xcfe4abd25f83f29429106b3a9f7d1db1;0x896b3230430b042d701a8ab1fbe5b9b7;0x49961fbb91238bdedc18bf2731a2f208;0x2f6c6a84aaa71faeb7acb69576c5ab64;0x5212133e336e5a8cd73288d8a8c06caf;0xb4ff50f394da855e743ba78e63dd47a8;0x088c3ba67903f9a3edce3a9f784faefb;0x3fb71c0b58a12e2baef3c268865b3451;0xd643d99f72be8c9e88e8b392187c4958;0x23a6ad710e447bbdcd0591a4324c5203;0x4e03a244658b0f1ab4c4db141cd70afd;0x609ff7a46914a6985601fb4b65c2c4be;0x0b5f7a0a504be0d71275430269fc0192;0xc4bbd1d80fc812433b652838f6811c23;0x35185965aed278d0e9ef17a0e07750e4;0x0ee9b93d2b93cb4bd07bc8665aea3329;0x64d90bf7b4f43b28c166e6e559049322;0x3bf1e0588541b39b3994dfc6ba9d63cd;0x30ae9a52d50a534c2be19cc4d361625f;0xc54beebca9f0a46f6e0cbef2f9517904;0x6bc08dae395f464f4474b8490c3ec52c;0x913c7f19c80ecc0b848bc4d373348879;0x4c20dc8ceafba0421e16344302b4c0b3;0xb29ad268c64ab7b6498e55774178da7a;0xfeba0ee42cb117f45798613443cc1ac9;0xe71d7ca9018c69fef660b99cc4cd4e20;0x27e05122d3a4e60d5a628c0a0e8a059f;0x8cddf10738d32fb1b21401d5c8f38b0c;0x3e47236ffe999807fb9a54a2898b5176;0x2909e81ff8372d468a19446c546036b6;0x7267ffe314623845e58c60e18b3f91c5;0x2cbf2b2883ef06da4817cf086776040d;0xa424267c66dcb4db6d64d3739343d89d;0x8efe8fcfb7a380e918c6ee82d6904142;0x51c152921a2643f82889f145b973c3c6;0xc871162dab2b765041cc0f09b208e544;0x16bef414a096036d24ea8604d23b02e7];
   [0xfbd50c7ac08096191187931bc9aeb5fc;0x08e08cb2171ace7b32fcabf8fef20aee;0xcbd0a250b2dc77c0bdcaef4e88c789dd;0x41101a5e6342d669c4123cd39313c011;0x38e5229865462fa29eb1d7adbf9b36cf;0xb3396a116f4ae73c7097292fcbc0ef6e;0x1fb7c2067d564d083578fd960ffe6831;0x88f89bc3a47973c794e789a3c509aa16;0x323d8de707bb33b74172266b9fb4dffb;0x7c998e18379bf720d423721d3c7e63c4;0x5c9ffb956bf3490f1c559b7b42304bfa;0x023823cd75e7d26eed3f5a3ededde3da;0xec8242ceaacc156a1603c57538a2d723;0x123bf86a5bd38d988904cf0de1faf7c5;0x7bcd1b0b73e32ba5b79cb140f2551504;0x5fbb28dfc586f2566694ec5af362384d;0xc1080d2fd0216bd562091e88a8e860e9;0x04704659ea0d67dc197eb47c7f790577;0x764121675566eb350be083db1c518af0;0x6c9a55bf19afa8d6b018e72e035977db;0x264e1019c3820b9d3c370724dfeace93;0x0fb419a1536212fe514368a530d97c2e;0x0c90caebfd17a9a72b821f84818b0f99;0xe012882557dbbccd3d81daf1b929d8ba;0xe65aedb1c831097fc9c034b3188d3e17;0xd65f439bba6de8a6658d48e659e40236;0x18e35715392e918d56c73ecbc1d51ef1;0x8eb0fe573b93c67560a667e164ad4cbb;0x547f77277ce987742ea93083bcc24114;0xe462ce7cbdd6db1124ff6e8dc650ddcd;0xac8ea817121caa3445efd4b9c43e875f;0x69f6e3612830a63d3e987e4d13afe2c1;0xeeba6103df2bc704fb3c9f4be67f34f9;0xd9eb5a3ae90ffa5834ce2043693d7e18;0xf745c6913d973fbe3a058c9f4825ba65;0xb9e1c56e0db7fb29af54d8e9ebef065a;0x8574a1af82fcb357289bbb382b0d35e2;0x1eab3281a6c4243fa286d0896071f85c;0x6642fac07b52b4c36fdb16e823769eef;0x3005ae2a725ce1d9ac4d7c5541693c21;0xd57b90d1141853ff1f4c3fc7e8b67181;0xa22641319aecd1fd835291039b686b1c;0xfc81996984f84a9c723850460785c33c;0x600a9f54e4b801719b9af8aa82d27842;0xffa54a232a8df1c508f92767b6d7b08b;0x6ea276726c487ab85d27bd10dd849401;0xeaca275a3526a0d8e2422b379906318e;0x833cc43b1d1606e5dcda557a8aa9d34f;0x156f6d791fab511deabb0c502fd18105;0xc014fda80bb302e2f5f73397c767f084;0xdc87ece4d890f4b3ba4eb92079cbeb02;0xb46dff022b323bb91328ea7205eb99ae;0xebd6d7ddeeb4c9ef75bc0628f689a1e3;0xc8f4711a1ca9cc99c70b986f3995fa6a;0x84685128596eda60bf6596274482a58f;0xe57e3efb6644b226b3014392a9df4da0;0xa74af7efab73df160dd208608b9efe06;0x447cac8052ddd8824a92a5b083e5550b;0xbac51624a3c24070d595afc85abd75ed;0x6232bc99915fd31f76a5a2945c0f9b98;0xf229704f0c083155b48515fc58d32f7f;0x532be23438915bf14d16f3de72e937d4;0x9ac363a9ffaafe5f1de346ae24f35dd3;0x1003dba72e345ff6643b95333f27141f;0x1d8fe1cb08b19f66d847a7a8d1238beb;0x0ad8af7f62fd1c15dfc3f1c6202fe934;0xd333f5458bf2e64deb0dd1854912972c;0xfd9d69ee5f6a23abe5c67d59680a5351;0x732d97b964f9e5de85601ab80ca71fea;0xf10da305a27d8a0cce4462dde9815cc8;0x4ad445a6da2da34b8c2fe00adcb3b948;0xa102927b34996aa4f993e6222a3a18ab;0xaac6cd838df61f86b1ae3afb659a61f2;0x747902aa2081395be6dfd9e5c28c692a;0x14739dfec439382a7d45214f405e1168;0x39f9d21fbed44695094ffab2d014a6a2;0x95777a08acc8eca14ca02e0b142a21fd;0x5bcb6e862f8b958a7fea58268c1b3d3a;0x564754ea090e551ac3966abd621fa2ce;0x8ac0b80ed19ea1a979d8d39d1bd449cc;0xdfa33fae76e54feac08fce01c89998b5;0xcd98c7c42d36c272498b010c29636f70;0x5113c1f94d76899fa029a9e0ac34d40e;0x3475e87398518605b533c8293e103956;0xf6593616e6055689adfba18027aa2a08;0x8d942d1d95e67d2c1a6710c0d5ff3f0c;0x6ad2302b86451d644459096ca2fd9176;0xf33580c8d79a5862237b38e3375cbf12;0xf57de55c4870edd0d73ad6a196f859bf;0x111f2b20f5a636c1f3c5b82c50a88472;0x9d97f6babbd222da7e5c85f3ead82b13;0x7565f22dfb13506c7121f4faad03f947;0x19ffa792e2bcf8bac13913d4ae5a8e9c;0x0324d34aae75bb597ac17721b15273b7;0x700944f3ca8c5e87ffa16d99bdf56c5d;0x7231673ebf6b8ce9129e37a763288f87;0x3add015510a1fdcc738e8d936146d515;0x8bdc48890a0cc89eee26fe82745bd9a1;0x33217d60dc295a80d68c0b74f03b4f96;0xc65c983c9459b75001b6ddd566c31629;0x2fb26c2c0f0aacd1993581c34e975410;0x89e46b447feb1af00319a4bcaa863a7b;0xbeb5507d49cf27accceb1bb425c4709a;0xcebc148e8343792b334a762d98311cc7;0xc464bbf1e1be653eec8987ebb81ef5f3;0xfac9fcfd1b12ff2e8679be04a6212591;0x3bc1f1d2cb3394fbe470a08c0ec94578;0xdd9b1c6303029d842db0943f16447b6f;0x775dd1e08ef482029c1eaec473de1a9d;0xc5784b763a2c0c097b77aaf4d791659e;0x164bbe33b1deea44907a7b719e83f2b2;0xa46e24a50506644f77137f413acc8db1;0xad925890c98ec303d211f9a6abb11732;0xd8f7aabd329d936fa3300d5c06b2ee75;0xb7492c48854780e069e99d53b4b9ea19;0x9223ef1be8b030242f1fed56da01573d;0x49f096ec74581812f6ee972b6de1caff;0x647ad90d0eb566ad82e44cd6fdab7d35;0x91073c5146c58b7d55de9a776b53248a;0x9c8b063d60404bede9a2a8ec8557bb7e;0x011cf087db92693797fe2d1f6f8f906d;0xe8f2049740c172b60f7d710947dbd254;0xa01e62fcef0b03936e6dcb3d45b588c6;0xbbd9e6a378502947426b82d73532e580;0xb5710f85f0a0528e84d6c76d6a6409c3;0x29fa09b890e019636d746f81ef33b2bd;0xe3365b6ff9ae07944740add0087bab0d;0x5ad79e01f419fcbde8147539e394ad57;0x17574eb46a4c83730784566ef10c62df;0x632e4c1e4acdba28e15b8f8b33800bf5;0x256ac3536df7b0c446f670056eb8bd24;0x7d857e9fec099e1743dd5f0253f1f3a9;0x2006758d5c68be2fc876e9667e4e283e;0x132708ed8041e4af1efae2128e7567a8;0x0ea8e92688f07bc9c6bd45ba5f56ec43;0x9fafd577ce35f0b49363dfcd3405c8c9;0xe10e78a28c49d5faaa7ff7eed6a648d7;0x556387a0a77bee43b9571d9cd34dd179;0x8fac0ed0e001af42f7584afe0b22dcd6;0xd10bd688fe15342306328bbb97cf74f6;0x400cead9b8d0bf5e53ec11ccfc9c507c;0x822034bcc6846fd24b247865e5264322;0x523712b3e30332c6dae8dec11d66a7b9;0xb2259a96b4d88e0be7690430a44f7f03;0x59f34d4b5a6c47e492d5021852c6dee0;0x3fb1b78b213ef327fd0e14f071b0400f;0xd4676056cf8a3ac888b212d88739e1ec;0x79f538c60604f9cb5aa3eb7e2c88f6de;0xe7461d3613a360485e3e19ac7702ae7a;0xefa6918404b9ae336cc2b25489f0a494;0xcacc52d7694e1ef72a34c251e74819b0;0x47587fcafca863db3053d29132b726bc;0xa572d422de940d78e0ed525e55431ddc;0xafaa7b5dbc69116d3f2ea398756cf4e8;0xa8feee4ef811cde85c9160c5bb478228;0x933f1f9c33225913b8e1c049b58ec750;0xed9eb249715e7c5d81fde86a572d474e;0xc3302ee2a5c6b9bb8f3644b676358333;0x2adedaf23e95a23a17b518a05e61c10a;0x9653a94202bd57f83661592aa578524a;0x2c96bf66a17f1788e3f4f6e2ffc527a7;0x5d830b12b06120388babb6642dbfdb97;0xe22aabe8223c6ea3d0be80cf67f43b60;0x7fbd5d5299ee4c79aee2053c8d2c1073;0x7ea1add5427c254e391c2823e2a3801e;0x00000000000000000000000000000000;0x3ead470cfaac9a106af039ef1e3fd062;0xc74068bb4fcbde679648f0ca094c8644;0x056cb6de319f0eeb8e80996310f6951a;0x3c9564c18f4b487e87cf63d1c0e233b8;0x874c8262f71b6139c5a4e106f5d0d638;0x675e0a47a0c0ddf4f8253bf74cf90e82;0x99e7b0e351df45066722318f95a12e64;0xabda3d04566476b1265017e40a15f19f;0xf9ed2fb7b5674477fcb8c92517735626;0xd22f05c250608f7a7cf3fc9a269d0741;0x064865949feab5b2f441ee42a1a4e6ad;0xa9e21ec92383a4dfcb6f4ddad4c81245;0x1bc7845f975b2ad42c0649ea70876d46;0x48ec666bafca71256110ba34026e5a92;0x974f59c5d92f3ecfa19f7435caf7c227;0xc22cde657e54d08c18c869a919ba135e;0x865072e52c89080e525acc199a5f4655;0x61166fd33f2a68460c64d5b5ed5de82f;0x364dcbbeedb6546b580c9217e0cdda8c;0x575ba46dd29c3c2d546847a20d9032a3;0xf011538279efe33b59ba4fc2860ecca5;0x2eae9cabd498c5e60ecbacdc2118c47d;0x7ad1eb8ca871429220629c5f9dda8569;0x3d89944654d9214910314eceaf6da3d5;0x8104e7f668f1d48b31e50f4454743095;0x356918f443c3ef3222cde536519fa93b;0xc9e8819dc73ba5ae50f5b570561a6a07;0x6566298ad5270f9a151a61c99224ed58;0x78e9c841dd9690fccd5dc661430766b3;0xbc8d73b03c28f5c221d4418afb199340;0x1c93114cd323f6514fb98ab7beac1b86;0x68ea13e6f3a2cf0aa96653527c2072ac;0xcc843743f6a4ab45de752c1346ecff1d;0xbfa9a0fa925d4e9b5b1536ab4a4be0f7;0x7115b474111e37b0685f4086d27afc30;0xb8fd35e9d625921e38aaf5f684609637;0xa656076870e1b6219a2c257fe4116e6b;0x223e5640298f6c412549b358a093cbe4;0x4d80d0b59e557fceef9023571298cf88;0xb01db95bc13f5c650a565e0e7a929cd9;0x901bccd69d57e24ac220b76804dcb4e7;0x2322a6c7f21d0576b2b79e47cf1c5b89;0x37513b3936243d5ccff2bf088f424ae1;0x6bcec0ac5dd77453d3a72473cd72011b;0x09fc7c35cc88a74ca50286e7917d9a83;0x247633d4b665d9f3d1085d1a01372d49;0x31195eada9ce88ee3bb3514a2ee6ac4c;0x4ea403ff3020c49795515476a3cabc3f;0x80181771b363bdbca61b225b3bfba0f8;0x2752e09e181062aaabc92a3bb0655efe;0x58efbdcc81fe2ed3052b2f073d494e8d;0x211a850a87fad7185f88c47911c1b853;0xcfa0e40958d1101ca4b45b32f7be8caa;0x946b8a8f775a8596db5e03147ba5b190;0x2d8a4fe17aed7ebf740adbfd904ab7ca;0xdebfcf29ad7726dd5771e31ea71608d8;0xaeb68bda67fb785aa8d08e871ae36485;0x8c88dd9a4e74141b8d993ddfba70af61;0x5ea7d8581e149b61f16ac1459ceda820;0xa33ab1b6417eb8ca14acbc1cf4e7fb71;0x2bc22a75e507cb0d804b35bf31ee5167;0x9eb325f015a79983049df2d25b8a58a4;0xbd918337e7ba9cf5b62a6c959496032d;0x1adb74d84cc943e3bbf864f51f08fd2b;0x98fb40648a4d2c31f0dc1c90fa2ebe09;0xd743b31c61ff8191f27365f9366b925b;0x4328399316a50407292d66ed4dce23cb;0xd017260f25875d1491cca6a4f840e49b;0x4bc8b52101bfca7c1bd1cd15b33c2925;0x28e6f93f4b727054fa8a429e80bc22d0;0x9bdf932e243897688a1d6bb14b7ccdbe;0x4c9c203245c716f9786e0e487d175fe5;0x6fbe86f5b7da138fcad9900fb20b046c;0x4fb8f378ebb2ada002af7969cc452c52;0x0bc45ff8b96f7522483ddcd94fa07959;0x4234c914cd376d30bed34bf22241b3a6;0xb655dccf5ed5e9d7fe17b04cdb367a74;0xf46115db93e284e740c4fbbef977c9d2;0xfeb9baa4f11f98f29f070a78d95820e6;0x0d8c3a6c2685c090bc7c329bee049ff4;0xb10149dc1aad35529da87311151d0cb4;0x075495134478dc8563bfc35dce2b76c0;0x46448f4d273a0aeca7adff8e5d38b6d1;0x45605c07894fb1b5dd6c88afec6ac566;0xdacf8970477a41014e0f5762d86f0daf;0xdbd379f79ce82836d9f17a7db7e09dc2;0xe9eef4109b531b8198835c1628544239;0xf8f1df306ef52d406b46e43a78fcc64b;0x500f317e96e4e0a837d784ffc3bb4463;0x6d86a538c23dc1e127e6ca316cd6e7b6]].

(** gost_grasshopper_precompiled.c:12332-24653 *)
Definition grasshopper_pil_dec128 : list (list N) :=
  [[0xa5cc0e86c24fba593be3ef79825311f0;0x2d039694956c2ab6f59cbae7378391bd;0x3217b1aba6f911d203c38ec9905892ad;0x8fa58244279665bf60da6e5928516884;0x0ed434ace0a929a09f89764df9c11351;0x30fc7ad286405f68b0371e1174b41571;0x38d6d0f506e1a4c539611bf762824c87;0xc0762bce5dc3bf6385dc784413955407;0x54d2db4709717d0fb672c1409704f2e8;0xe62058d9780a079ff2981ff1a4bab9fe;0x9e6591d7f4aa777b090c2c3a764b78c5;0x39425428165c8398811b539b10f4eee9;0x55465f9a19cc5a520e08892ce5725086;0x7ebb5785eca8a2e9ed4b40603d068b9c;0x522c45cc6979af02a0adb2eb78f3b84f;0x912521a604be79862eff121bfdfcc9fa;0x642ea1958f3122670645df51e3b0e799;0x037f4fa4300469e70b8ed8b4969a25b2;0x57ad94e3397514e8bdfc19f4019ed75a;0x5a06efebe9d854af29fbb70d6ec5e1b9;0x1c6b689b03915283fdd1ec9a314126a2;0x603bf467cf80bed0a36e3c22e8ab2ae2;0x076a1a5670b5f550aea53bc79d81e8c9;0x187e3d694320ce3458fa0fe93a5aebd9;0x213c6941557c4dacd9e15c722aae0530;0x7284a8502cb8c5f3c136a6f5202b1f11;0xa867758e12e2fa1eafe44180ed082713;0xd1b6385d8effada7ec0a3a274d8f4446;0x2916c366d5ddb60150b759943c985cc6;0xc688b5453dcb6d6e93030beffc621ea0;0xa4588a5bd2f29d048399a715f025b39e;0x3fbccaa37654519597c42030ff03a44e;0xe0dec6521802d592e4476c5a4b4df359;0x27c2f7ca35749fa1cf3e2fd9c5594f97;0x8d4e493d072f2b05d32efe81ccbdef58;0x0c3fffd5c010671a2c7de6951d2d948d;0x820ef94cf73b25f8f4ddc0a0470a5e67;0xea1fa70cb81a6085dee5f964b9972d73;0xae99eb0572ea2813b93b322b02ff6db4;0xb40c1d151173a89d5235ad1adc4901b1;0x9a70c425b41bebccac27cf497d50b5be;0x6344bbc3ff84d737a8e0e4967e310f50;0x492d37011a5d08d1f3d965b6d4337624;0xe55f177d480e6e78f916c74532209c4c;0x4278d282aaf89a9b7101b8e4549f0a60;0xe4cb93a058b34925416c8f2940563e22;0x15d54661938d8e73ccfda1105501dd3a;0xb77352b12177c17a59bb75ae4ad32403;0xc85c81e9dd6244ce0c8a7da205a30df1;0x06fe9e8b6008d20d16df73abeff74aa7;0x706f63290c018b4972c2362dc4c798cd;0x9d1ade73c4ae1e9c0282f48ee0d15d77;0x41079d269afcf37c7a8f6050c2052fd2;0x75eeb2065c0d30a36f939d32bdaaf7d8;0x19eab9b4539de969e0804785482c49b7;0xc9c80534cddf6393b4f035ce77d5af9f;0xaa8cbef7325bb4a41c10d15809e4a0cf;0xfcb5aec91b938711199680c07a0cd5fb;0x4d3862f35aec946656f286c5df28bb5f;0xbf59f896a1d63ad7d0ed70485ce57df5;0x2a698cc2e5d9dfe65b398120aa027974;0x73102c8d3c05e2ae794cee99525dbd7f;0x84f067c79733f7f5e202b30ba8fd14c0;0xd5a36dafce4e31104921d9544694893d;0xc309646a6dc7d6848e52a0f0850f71b5;0xaf0d6fd862570f4e01417a477089cfda;0x2bfd081ff564f8bbe343c94cd874db1a;0x861bacbeb78ab94f51f623d34c11931c;0xa727c5ffe2f6f4e388177fa166bf962c;0xb18dcc3a417f13774f640605a5246ea4;0xb2f2839e717b7a9044eadeb133be4b16;0x5b926b36f96573f29181ff611cb343d7;0x466d8770ea49062cd42a5b975f84c71b;0xd35df324ae46e31d5ffeaaffa963c39a;0x9ff1150ae4175026b1766456043ddaab;0xfd212a140b2ea04ca1ecc8ac087a7795;0xd437e972def3164df15b913834e22b53;0x0f40b071f0140efd27f33e218bb7b13f;0x9c8e5aaed41339c1baf8bce292a7ff19;0x2fe85dedb5d5640c46682a3fd36f1661;0x9be440f8a4a6cc91145d87250f2617d0;0x43ec565fba45bdc6c97bf08826e9a80e;0xef9e7623e816db6fc3b4527bc0fa4266;0xd99c927a0e5e560a655c3fc15bb91db0;0x79d14dd39c1d57b943ee7ba7a0876355;0xb6e7d66c31cae627e1c13dc238a5866d;0x53b8c11179c4885f18d7fa870a851a21;0x7f2fd358fc1585b45531080c4f7029f2;0xc1e2af134d7e983e3da6302861e3f669;0xf08a511cdb83e00b35eb665567214176;0x23d7a23875c503166a15ccaace4282ec;0xe7b4dc0468b720c24ae2579dd6cc1b90;0x25293cb315cdd11b7ccabf0121b5c84b;0x5e13ba19a969c8188cd0547e65de2cc2;0xb59899c801ce8fc0ea4fe576ae3fa3df;0x1e80a3e223281c394e257c42d5ada17e;0xa2a614d0b2fa4f099546d4be1fd2f939;0xdf620cf16e56840773834c6ab44e5717;0xa6b34122f24bd3be306d37cd14c93442;0xfe5e65b03b2ac9abaa6210189ee05227;0xac72207c525366a90acfa2f3e613ea68;0x224326e56578244bd26f84c6bc342082;0xf9347fe64b9f3cfb04c72bdf0361baee;0xe2350d2b38bb9b2857b3fc82afa17485;0x4a5278a52a596136f857bd0242a95396;0xbc26b73291d25330db63a8fcca7f5847;0x357dabfdd64ce482ad66b50e0dd97a64;0xcab74a90fddb0a74bf7eed7ae14f8a2d;0xee0af2fef8abfc327bce1a17b28ce008;0x7845c90e8ca070e4fb9433cbd2f1c13b;0x0581d12f500cbbea1d51ab1f796d6f15;0x6b6e11e47f252c9a21b6e170680756a6;0x51530a68597dc6e5ab236a5fee699dfd;0xe14a428f08bff2cf5c3d2436393b5137;0x5979a04fd9dc3d4822756fb9f85fc40b;0xa332900da24768542d3c9cd26da45b57;0xf2619a65fb3aaeb1861ff68d83cdc6aa;0x71fbe7f41cbcac14cab87e41b6b13aa3;0x5639103e29c833b50586519873e87534;0x11c01393d33c12c469d642635e1a1041;0x6afa95396f980bc799cca91c1a71f4c8;0x895b1ccf479eb7b276051df2c7a62223;0x94a4f08954b2c26c33aeb9048491a6ef;0x65ba25489f8c053abe3f973d91c645f7;0x8cdacde017920c586b54b6edbecb4d36;0xbb4cad64e167a66075c6933b57feb08e;0x7705797f7cb47e19dc670dea59467004;0x3cc38507465038729c4af884699981fc;0x7b3a86aabca41903f01aeb7f446be489;0x288247bbc560915ce8cd11f84eeefea8;0xab183a2a22e693f9a46a99347b9202a1;0xd2c977f9befbc440e784e293db1561f4;0x3168fe0f96fd7835084d567d06c2b71f;0xdef6882c7eeba35acbf90406c638f579;0xc4637e3c1d7223d420f79b37188e997c;0x5f873ec4b9d4ef4534aa1c1217a88eac;0xcc49d41b9dd3d879a9a19ed10eb8c08a;0xcf369bbfadd7b19ea22f46659822e538;0x7691fda26c095944641d45862b30d26a;0x2c97124985d10deb4de6f28b45f533d3;0xb833e2c0d163cf877e484b8fc164953c;0xd80816a71ee37157dd2677ad29cfbfde;0x2e7cd930a5684351fe126253a119b40f;0x3602e459e6488d65a6e86dba9b435fd6;0xdb7759032ee718b0d6a8af19bf559a6c;0x6985da9d5f9c6220924271a88cebd17a;0xb366074361c65dcdfc9096dd41c8e978;0x1441c2bc8330a92e7487e97c27777f54;0x95307454440fe5318bd4f168f6e70481;0xbecd7c4bb16b1d8a689738242e93df9b;0x62d03f1eef39f06a109aacfa0c47ad3e;0xa1d95b7482fe26ee9ec80c0a8948dc8b;0x3ba99f5136e5cd2232efc343f4186935;0x16aa09c5a389e794c77379a4c39bf888;0x66c56aecaf886cddb5b14f89075c6045;0xe960e8a8881e0962d56b21d02f0d08c1;0x5cf8716089d086a23f24c4a68132ab1e;0x6c040bb20f90d9ca8f13dab7f586be6f;0x6d908f6f1f2dfe97376992db87f01c01;0xade6a4a142ee41f4b2b5ea9f94654806;0x37966084f6f5aa381e9225d6e935fdb8;0x61af70badf3d998d1b14744e9add888c;0x4bc6fc783ae4466b402df56e30dff1f8;0xb9a7661dc1dee8dac63203e3b3123752;0xe3a189f62806bc75efc9b4eeddd7d6eb;0xbad829b9f1da813dcdbcdb57258812e0;0xf11ed5c1cb3ec7568d912e391557e318;0xa04ddfa9924301b326b24466fb3e7ee5;0x8564e31a878ed0a85a78fb67da8bb6ae;0x839a7d91e78602a54ca788cc357cfc09;0xdae3ddde3e5a3fed6ed2e775cd233802;0x47f903adfaf421716c5013fb2df26575;0xc5f7fae10dcf0489988dd35b6af83b12;0xb01948e751c2342af71e4e69d752ccca;0x33833576b644368fbbb9c6a5e22e30c3;0xfa4b30427b9b551c0f49f36b95fb9f5c;0x964f3bf0740b8cd6805a29dc607d2133;0x6f7b44163f94b02d849d0203631c9bdd;0x6eefc0cb2f2997703ce74a6f116a39b3;0xc29de0b77d7af1d93628e89cf779d3db;0xf674cf97bb8b3206233415fe88d60bd1;0x50c78eb549c0e1b8135922339c1f3f93;0xffcae16d2b97eef612185874ec96f049;0x5d6cf5bd996da1ff875e8ccaf3440970;0xa9f3f153025fdd43179e09ec9f7e857d;0x8e310699372b42e2d8a026355a27caea;0x173e8d18b334c0c97f0931c8b1ed5ae6;0x1b0172cd7324a7d35374d75dacc0ce6b;0x97dbbf2d64b6ab8b382061b0120b835d;0x7dc41821dcaccb0ee6c598d4ab9cae2e;0xece13987d812b288c83a8acf566067d4;0x58ed2492c9611a159a0f27d58a296665;0xf7e04b4aab36155b9b4e5d92faa0a9bf;0x1f14273f33953b64f65f342ea7db0310;0xfbdfb49f6b267241b733bb07e78d3d32;0x7c509cfccc11ec535ebfd0b8d9ea0c40;0x09be2efa901cdcf0312c4d8a6440fb98;0x0dab7b08d0ad40479407aef96f5b36e3;0x7aae0277ac193e5e4860a313361d46e7;0x6751ee31bf354b800dcb07e5752ac22b;0x4512c8d4da4d6fcbdfa48323c91ee2a9;0x878f2863a7379e12e98c6bbf3e673172;0xdc1d43555e52ede0780d94de22d472a5;0xe8f46c7598a32e3f6d1169bc5d7baaaf;0x4fd3a98a7a55dadce506161d3bc43c83;0x1dffec46132c75de45aba4f6433784cc;0x4e472d576ae8fd815d7c5e7149b29eed;0x041555f240b19cb7a52be3730b1bcd7b;0xeb8b23d1a8a747d8669fb108cbe18f1d;0xf8a0fb3b5b221ba6bcbd63b371171880;0xf3f51eb8eb8789ec3e65bee1f1bb64c4;0x3e284e7e66e976c82fbe685c8d750620;0x3d5701da56ed1f2f2430b0e81bef2392;0xbdb233ef816f746d6319e090b809fa29;0x8a24536b779ade557d8bc546513c0791;0x88cf9812572390efce7f559eb5d0804d;0xdd89c7884eefcabdc077dcb250a2d0cb;0xcddd50c68d6eff2411dbd6bd7cce62e4;0x0b55e583b0a5924a82d8dd5280ac7c44;0x132bd8eaf3855c7eda22d2bbbaf6979d;0x989b0f5c94a2a5761fd35f9199bc3262;0x02ebcb7920b94ebab3f490d8e4ec87dc;0x93ceeadf2407373c9d0b82c319104e26;0x80e53235d7826b4247295078a3e6d9bb;0x90b1a57b14035edb96855a778f8a6b94;0xd022bc809e428afa5470724b3ff9e628;0x24bdb86e0570f646c4b0f76d53c36a25;0x34e92f20c6f1c3df151cfd627fafd80a;0xcb23ce4ded662d290704a51693392843;0xed75bd5ac8af95d57040c2a32416c5ba;0xf49f04ee9b327cbc90c085266c3a8c0d;0xcea21f62bd6a96c31a550e09ea544756;0x990f8b81841f822ba7a917fdebca900c;0x1054974ec3813599d1ac0a0f2c6cb22f;0x44864c09caf0489667decb4fbb6840c7;0x409319fb8a41d421c2f5283cb0738dbc;0x925a6e0234ba10612571caaf6b66ec48;0x3a3d1b8c2658ea7f8a958b2f866ecb5b;0x019484dd10bd275db87a486c7276a26e;0x2656731725c9b8fc774467b5b72fedf9;0x12bf5c37e3387b2362589ad7c88035f3;0x1a95f6106399808eeb0e9f31deb66c05;0x48b9b3dc0ae02f8c4ba32ddaa645d44a;0x68115e404f21457d2a3839c4fe9d7314;0xf50b80338b8f5be128bacd4a1e4c2e63;0x8171b6e8c73f4c1fff531814d1907bd5;0x8bb0d7b66727f908c5f18d2a234aa5ff;0xc71c31982d764a332b7943838e14bcce;0xd6dc220bfe4a58f742af01e0d00eac8f;0x20a8ed9c45c16af1619b141e58d8a75e;0x0ac1615ea018b5173aa2953ef2dade2a;0x082aaa2780a1fbad895605e6163659f6;0x00000000000000000000000000000000;0x4cace62e4a51b33bee88cea9ad5e1931;0xd748a6d6eef77faafad5498ca2780ee1;0x747a36db4cb017fed7e9d55ecfdc55b6];
   [0xccec18151b1197c3f09a7d3e773a939b;0x03524c32a49105cdbd7b440e71ada623;0x170c9aa9189239d8ad0af246787d0274;0xa543ab0486682c3c84833517db7b4098;0xd4393d467213bf6451c4184e791bea40;0xfc8552b3c915c74e7126b7de6b7861ee;0xd6e4f4db0b4cb953879660fb276c2ec3;0x76518b89a2549afb079899fe6f23473e;0xd29da522f9f2b53de83290529b826506;0x204ecdc49cb960f6fe698c01a97c1de7;0x652440d94878af4dc5369b11abb00e8f;0x424190d682eec618e980a3b7cf8ffe8e;0x4638c12f7050ca768624531e7361b54b;0xbb321633648b0ec29c2bd87b37c3b605;0x2cc53e0c49b874444f465f39ae8dc06b;0x25b81992b3c96f62fae440133a483482;0x2e18f79130e772739914278cf0fa04e8;0x7f2cac17582581ddb23a86d4fbe6b3d7;0xadb10935a1d734e05a0816866064d6d1;0x06a498648be10a59b9f6881ce2998f46;0x6b727a8ce426bdc8a24b309cf2361780;0x3bc9a4a5512a4d9ce24cad7fd6f0c21f;0x6afdff2339e8be32c9620c27ddec7520;0x7ea329b885eb8227d913ba6fd43cd177;0x3ce2b96e0705443f309319d81bb32ff9;0x8482e36fc71f4f3011c385ad5ddd3fdf;0x67f989443127a97a1364e3a4f5c7ca0c;0xb63660546c44198a462d37f81fe80929;0x16831f06c55c3a22c623cefd57a760d4;0x880910a7121e5b82a0ec56955a2ce253;0x58497c1892b3e8889e8cbe729fd943d6;0xbc190bf832a407614ef46cdcfa805be3;0xde1656ea2cf3a18f591d436a9c73b88a;0xc2ba2240b74f854697e7d6b32ebc8a94;0x4eca631e57efd2aa58af708fc87e2302;0x3fb0f55ca39441f28de85dd66a1e89da;0x0e563a55ac5e1285677dab8d5986190f;0x1ffe38983f2d21047381d1d7c362943d;0x99a1126a816d6803b4102ccfc0c86f61;0x0c8bf3c8d50114b2b12fd33807f1dd8c;0x70f513ed29b590a2be6e11e28dbac878;0x44e508b2090fcc4150762bab2d1671c8;0x2d4abba3947677be246f63828157a2cb;0x5f6261d3c49ce12b4c530ad5529aae30;0x7807b1dc0e0a887e60e5327336a55e31;0xcbc705de4d3e9e602245c999ba797e7d;0xd5b6b8e9afddbc9e3aed24f556c188e0;0x73a75fdf8d24956f031555ecfc176e5b;0x5c302de1600de4e6f1284edb23370813;0xfe589b2eb04ac179a774cf6b350fa56d;0x6f0b2b751698b1a6cdefc0354ed85c45;0x1a08ecce105d2e90770c1dc55056bd58;0x072b1dcb562f09a3d2dfb4a7cd43ede6;0xee7f1c4cfef7f102d8a1898a80314aff;0xea064db50c49fd6cb70579233cdf013a;0xc89549ece9af9bad9f3e8d97cbd4d85e;0x8c70415ee0a057eccf48a63ce6c2a996;0xb5642c66c8d51c47fb5673f66e45af0a;0x389be897f5bb48515f37e971a75d643c;0x59c6f9b74f7deb72f5a582c9b0032176;0x69afb3119d79bbff74194829ac41d303;0x102787624ebd307b7fd546e1b53eef92;0xf00ea17b1c14d3fcc00964e66c89bc62;0xa3e733600d8926653d75bd0b39e2cfde;0x097d279efa711b26b5a21f2a94c5f4e9;0x0d04766708cf1748da06ef83282bbf2c;0xfd0ad71c14dbc4b41a0f8b6544a2034e;0x1b876961cd932d6a1c25217e7f8cdff8;0x2765d00fca9669552cb638a6643ff001;0x8dffc4f13d6e5416a4619a87c918cb36;0xf2d368e6654bd5cb165b1c5332fe78e1;0x9201fc6902437512d7e04b500a7a5f0b;0x6dd6e2e86fc7b7911bbdb88010af98c6;0x5dbfa84ebdc3e71c9a0172600ced6ab3;0xf18124d4c1dad006ab20585d4353dec2;0x21c1486b4177630c9540b0ba86a67f47;0x3742576d842b592e53637e47d1011f93;0x409c594bfbb1c02f3fd2db0291f83a0d;0x8ead88c399ff51db191ade89b8b56d15;0xe8db84287516fb5b6157019662a8c5b9;0xe45077e0a017efe9d078d2ae65591835;0xeca2d5d187a8f7350ef3f13fde468e7c;0x9e8a0fa1d74261a066cf98680d8b8287;0x9c57c63cae1d6797b09de0dd53fc4604;0xd1cfe9105d63b0f05549d45cea2fc325;0xe7023bd20486ea246d0396a014f4be16;0xb8605a01c01a0b0f21509c75466e1026;0x2f97723eed297189f23d1b37df206648;0xe2f4ef842bf6e5b0698e5ab287c09773;0x8ad4d93a6b415db576be2e20045b26d0;0xd76b7174d682baa9ecbf5c4008b64c63;0xb4eba9c9151b1fbd907f4f4d419fcdaa;0x2933ea5a66c87bd04bcb932b3db9e90e;0x1375cb50ea2c35b6c2ae02efc49349b1;0x982e97c55ca36bf9df391074ef120dc1;0x80fbb29635a1435e7e677504e133741a;0xa611e73622f929f139f87119aad6e6bb;0x620f5d121e57a6ee17e92fb666f3e369;0xb3c0b4024334161e42a0fbea8cdc204c;0x5eede47c1952e2d1277a366e7d40cc90;0x7228da7050ea9695683c6957d3cd0cfb;0x43ce15795f20c5e282a99f0ce0559c2e;0x34101b5f20ba5ce3ee183a49a0acb9b0;0x359f9ef0fd745f19853106f28f76db10;0x526617b4cc53f6639655e5567ab1111c;0x26ea55a017586aaf479f041d4be592a1;0x7df1658a217a87ea6468fe61a5917754;0xb7b9e5fbb18a1a702d040b4330326b89;0x0a2f6bac5ee01eeb08d95b24e56852ca;0x456a8d1dd4c1cfbb3b5f171002cc1368;0x81743739e86f40a4154e49bfcee916ba;0x6e84aedacb56b25ca6c6fc8e61023ee5;0x53e9921b119df599fd7cd9ed556b73bc;0x4ab332e7a551dec4370b8026749068c7;0x79883473d3c48b840bcc0ec8197f3c91;0x32b4833bab5b56ba57eeb255423536f6;0x615d1120bac6a323aa926bb8175e454a;0xfbae4f789f3aceeda3f90379a63b8c08;0x39146d3828754bab341ed5ca8887069c;0xc067ebddce10837141b5ae0670cb4e17;0xfa21cad742f4cd17c8d03fc289e1eea8;0x5b1b302a3622ed4523f7fa7cee74e5f5;0xa4cc2eab5ba62fc6efaa09acf4a12238;0xbabd939cb9450d38f702e4c01819d4a5;0xda6f0713de4dade136b9b3c3209df34f;0x4c17aa832eb0d49d8efd083a9609e781;0x05f6d4562f700f94048dcc1293342965;0xc335a7ef6a8186bcfcceea080166e834;0x3a46210a8ce44e66896591c4f92aa0bf;0x82267b0b4cfe4569a8350db1bf44b099;0x18d52553690228a7a15e65700e2179db;0xc91acc4334619857f417b12ce40ebafe;0x682036be40b7b8051f307492839bb1a3;0xf6aa391f97f5d9a579ffecfa8e103324;0x6380d8bdc399a5147cc0130d492981c9;0x87d0af5d638e4afdacb8c1a32c7099fc;0x49e17ed501c0db098a70c428053dcee4;0x36cdd2c259e55ad4384a42fcfedb7d33;0x9153b05ba6d270df6a9b0f5e7bd7f928;0x97f7283f2d337a86d36d8742994e766e;0x333b0694769555403cc78eee6def5456;0x08f2a23127bf18dcde8b2391bb1f9649;0x7c7ee025fcb484100f41c2da8a4b15f4;0x02ddc99d795f0637d65278b55e77c483;0x77de0e267f9a99016cb1a54540f9259e;0x850d66c01ad14cca7aeab91672075d7f;0x66760cebece9aa80784ddf1fda1da8ac;0x4113dce4267fc3d554fbe7b9be2258ad;0x30694aa6d204508d81bccae01c42f275;0xcd639dbac6df94399bb3418558e0f13b;0xd0406cbf80adb30a3e60e8e7c5f5a185;0xd93d4b217adca82c8bc2f7cd5130556c;0xa9c858cc5369388e35ace62fdc8a9d14;0xaa9a14fef7f83d4388d7a221ad273b37;0xc5913f8be1608ce545386214e3ff6772;0x60d2948f6708a0d9c1bb5703388427ea;0xf8fc034a3babcb201e824777d7962a2b;0x047951f9f2be0c6e6fa4f0a9bcee4bc5;0x90dc35f47b1c732501b233e5540d9b88;0xe68dbe7dd948e9de062aaa1b3b2edcb6;0x9678ad90f0fd797cb844bbf9b69414ce;0xaf6cc0a8d88832d78c5a6e333e131252;0xc6c373b945f18928f843261a9252c151;0xa79e6299ff372a0b52d14da2850c841b;0xa13afafd74d62052eb27c5be67950b5d;0xd8b2ce8ea712abd6e0ebcb767eea37cc;0x1e71bd37e2e322fe18a8ed6cecb8f69d;0x4d982f2cf37ed767e5d43481b9d38521;0x64abc57695b6acb7ae1fa7aa846a6c2f;0x9af35e5825fc6dce096b68c1b165c942;0xe37b6a2bf638e64a02a76609a81af5d3;0xf97386e5e665c8da75ab7bccf84c488b;0xf725bcb04a3bda5f12d6d041a1ca5184;0x195aa0fcb4cc2b5dca7759cb21fb1b7b;0x83a9fea491304693c31c310a909ed239;0x4b3cb748789fdd3e5c22bc9d5b4a0a67;0x4f45e6b18a21d15033864c34e7a441a2;0x7b55fdeeaa9b8db3dd9e767d4708f812;0xeff099e32339f2f8b388b531afeb285f;0x9dd8439373d3646ddbb4dc667c2624a4;0x748c4214db0b9cccd1cae14b315483bd;0xc74cf616983f8ad2936a1aa1bd88a3f1;0xca48807190f09d9a496cf52295a31cdd;0x6c596747b209b46b7094843b3f75fa66;0xf35ced49b885d6317d7220e81d241a41;0x31e6cf090fca5377ea95f65b339890d5;0x3e3f70f37e5a4208e6c1616d45c4eb7a;0x018f85afddce03fa6b293cbb2fda62a0;0xdbe082bc0383ae1b5d908f780f4791ef;0xc41eba243cae8f1f2e115eafcc2505d2;0xe1a6a3b68f67e07dd4f51ebcf66d3150;0xed2d507e5a66f4cf65dacd84f19cecdc;0xe029261952a9e387bfdc2207d9b753f0;0x145ed69bbc033c151071b64809d0a457;0xdf99d345f13da27532347fd1b3a9da2a;0x50bbde29b50cf05440079de324c6d59f;0xbec4c2654bfb015698a61469a4f79f60;0xab1591512a363eb9e3fe9e9a82fd5997;0xaee345070546312de773528811c970f2;0x51345b8668c2f3ae2b2ea1580b1cb73f;0x12fa4eff37e2364ca9873e54eb492b11;0x8f220d6c443152217233e232976f0fb5;0x1d23f10546722733a5d3a9629d1550be;0xf477f082eeaadf92afad944fd067f7a7;0xd312208d243cb6c7831bace9b45807a6;0xffd71e816d84c283cc5df3d01ad5c7cd;0x47b74480ad9ec98ced0d6fa55cbbd7eb;0x15d1533461cd3fef7b588af3260ac6f7;0x8b5b5c95b68f5e4f1d97129b2b814470;0xa0b57f52a91823a8800ef905484f69fd;0xf5f8752d3364dc68c484a8f4ffbd9507;0x28bc6ff5bb06782a20e2af9012638bae;0x5790c3e2e323f9f792d82944e9853879;0xb24f31ad9efa15e42989c751a30642ec;0x24379c3d6e076c9891cd7ca815925622;0xcfbe5427bf80920e4de13930069735b8;0x89869508cfd05878cbc56a2e75f680f3;0xdd441ad88862a442e4660764edde1ea9;0x554d0a7f9a7cffc0448a51f1b7f2fcfa;0x2bee23c71f977de79d99eb9e63ce2d8d;0x9b7cdbf7f8326e346242547a9ebfabe2;0xeb89c81ad187fe96dc2c45981305639a;0xce31d188624e91f426c8058b294d5718;0xe5dff24f7dd9ec13bb51ee154a837a95;0xb11d7d9f3a6b102994f2835fd2abe4cf;0x22930459e5e666c1283bf4b4f70bd964;0xbd968e57ef6a049b25dd5067d55a3943;0xe9540187a8d8f8a10a7e3d2d4d72a719;0x231c81f63828653b4312c80fd8d1bbc4;0x7503c7bb06c59f36bae3ddf01e8ee11d;0x9f058a0e0a8c625a0de6a4d32251e027;0xa268b6cfd047259f565c81b01638ad7e;0x0fd9bffa7190117f0c549736765c7baf;0x54c28fd047b2fc3a2fa36d4a98289e5a;0x865f2af2be404907c791fd1803aafb5c;0x938e79c6df8d76e8bcc977eb25a03dab;0x5a94b585ebeceebf48dec6c7c1ae8755;0x3d6d3cc1dacb47c55bba256334694d59;0x94a5640d89a27f4b6e16c34ce8e3d04d;0x561f464d3eedfa0df9f115ffc65f5ad9;0xbf4b47ca963502acf38f28d28b2dfdc0;0x952ae1a2546c7cb1053ffff7c739b2ed;0xb9efdfae1dd408f54a79a0ce69b47286;0x11a802cd9373338114fc7a5a9ae48d32;0x0ba0ee03832e1d1163f0679fcab2306a;0x717a9642f47b9358d5472d59a260aad8;0xb092f830e7a513d3ffdbbfe4fd71866f;0x1cac74aa9bbc24c9cefa95d9b2cf321e;0xdccb9f7755aca7b88f4f3bdfc2047c09;0xa847dd638ea73b745e85da94f350ffb4;0xc1e86e7213de808b2a9c92bd5f112cb7;0x2a61a668c2597e1df6b0d7254c144f2d;0x00000000000000000000000000000000;0xac3e8c9a7c19371a31212a3d4fbeb471;0x486efb7adc0ed8f3e159f8932ae7ac44;0x7ada784177558e49b6b74ac668d29ab2];
   [0x4735efb5efef30e6afa0898613855fe6;0xe963bae4baba986718d65a94217ca567;0x8fb28ede8e8ef786b87764ab6e291586;0x4ee26efc6e6e95ad61f8dd445e69e5ad;0x03ab769976767a586fdf1cacd8e33e58;0xcfca1eed1e1ea459ec5e60d246499d59;0x0ce91b211b1b2ba37ffa70f5e60af8a3;0xbaae78327878d5a736bb43cedbe731a7;0x126dc192c1c189965fb0a8479a1bb796;0xf0aa1fd11f1f596bc3150fd966883d6b;0x2b982c5f2c2c8014ae86ffd7c9df6b14;0x2cd553d95353e32d550f7228f23abc2d;0x3251896a898941187545aa9a8e2bf318;0x1bba40db40402cdd91e8fc85d7f70ddd;0xd2e5b2c7b2b27c34a3cba4cce2bbec34;0x080f123e121232c2ebace1a6050c11c2;0xdda7df7fdfdf2dcfb3eec895dc522acf;0x6044d8cbd8d89b517edc06a43c50cc51;0x72291959191912c7216caee3a64b7bc7;0x11c6b70bb7b7f3ce306fb4eb42f889ce;0x0695ecf1ececf4b0de7d389b73057cb0;0x5d573c193c3c8bb21bbcc0678c92f9b2;0xe0b43bad3b3b3d2cd68e0e566c901f2c;0x86650f970f0f52cd762f306923c5afcd;0xaab05c4e5c5cb1e023204241d1ff13e0;0x5869a671a6a6055aaa1ee4502774bb5a;0x24da41e74141d1efbea3938ef736adef;0xdfd43a913a3ac01ef9c5615d4c51bf1e;0x6993598259593e1ab084526671bc761a;0x7a260b670b0b2005cac04f45a3476a05;0x6709a74da7a7f86885558b5b07b51b68;0xec5d208c2020168fa9747ea38a9ae78f;0x30226c846c6cacc93f6e03521e2866c9;0x6a382f1b2f2f4442df5b4ecaa95f4842;0x0e9afecffefec67235d1d93d76096d72;0x43d3e6aae6e629873bf618d5f083b687;0x2d0dc0aec0c074a470fbc74cbada17a4;0xb379f97bf9f970ecf8e3170c960b8bec;0xe45232b23232244d42d89f058f96f64d;0x224fad16adad255f60deab158433d15f;0xab68cf39cfcf266906d4f725991fb869;0x3d13e4d2e4e410e36560c6c3b0c235e3;0x34c4659b6565b5a8ab389201fd2e8fa8;0x90eec71ac7c7c23abdc9097d5ad8f13a;0x97a3b89cb8b8a10346408482613d2603;0xb0d28fe28f8f0ab4973c0ba04ee8b5b4;0xe58aa1c5a1a1b3c4672c2a61c7765dc4;0x420b75dd7575be0e1e02adb1b8631d0e;0x798d7dfe7d7d5a5da51f53e97ba4545d;0xc08873557373f5a2fc7b0c8b78a05ba2;0x1811364236365685fe37e0290f143385;0x4bdcf494f4f41b45d05af973f58fa745;0xf7e7605760603a52389c82265d6dea52;0xb8dd9ddc9d9d38767c90ea064be4a476;0xa659476f47479a435cda32b437f5eb43;0x59b13506353592d38fea51346f9410d3;0x64a2d1d4d1d18230ea8a97f7df562530;0x36b7807580805879e1133bc96d2d1a79;0xb43486fd868613d5036a9af3adee5cd5;0x81287011707031f48da6bd96182078f4;0x09d781498181a54bce5854c24decba4b;0x7855ee89eeeecdd480ebe68d3344ffd4;0xed85b3fbb3b381068c80cbc7c27a4c06;0x5f24d9f7d9d96663519769af1c916c63;0xdaeaa0f9a0a04ef64867456ae7b7fdf6;0xc46e7a4a7a7aecc3682d9dd89ba6b2c3;0x29ebc9b1c9c96dc5e4ad561f59dcfec5;0xadfd23c82323d2d9d8a9cfbeea1ac4d9;0x074d7f867f7f6339fb898dff3be5d739;0x8283068806064bace279a13ac0c346ac;0xe2c7de43deded0fd9ca5a79efc938afd;0x31fafff3ffff3b401a9ab63656c8cd40;0x17535bfa5b5b077eee128c7031fdf57e;0x9facaaa2aaaa93c1adec6524643137c1;0x0ba464a76464489a8473fd0addef2f9a;0x168bc88dc8c890f7cbe63914791d5ef7;0x7f18910f9191aeed7b626b7208a128ed;0x23973e613e3eb2d6452a1e71ccd37ad6;0x6be0bc6cbcbcd3cbfaaffbaee1bfe3cb;0xa91b2ad72a2acbb84cff5eed091c2db8;0x8b5487c18787eee72c21f5f88d2ffce7;0xb79ff064f0f0698d6cb5865f750d628d;0x13b552e552521e1f7a441d23d2fb1c1f;0x1cf73f5d3f3f4fe46a61717aec12dae4;0xfb0e7b767b7b11f14766f2d3bb6712f1;0x62373d253d3d768034f7af6cac535980;0xf2d9fa3ffafab4ba893ea611f68ba8ba;0x3b8608230808e453bb1dfe58c3c74953;0x9a9230ca30301d291c4e4113cfd77529;0x756466df666671fedae5231c9daeacfe;0xeac8cc7dcccce23f77094638f99f9b3f;0xd0965729575791e5e9e00d0472b879e5;0x2a40bf28bfbf179d8b724ab3813fc09d;0x9136546d545455b3983dbc1912385ab3;0x0273e5eee5e5edd14a2ba9c8900395d1;0x46ed7cc27c7ca76f8a543ce25b65f46f;0xa781d418d4d40dca792e87d07f1540ca;0xdc7f4c084c4cba46961a7df194b28146;0x2771377e3737abb7d17c8f222fd593b7;0x76cf104610100ba6b53a3fb0454d92a6;0xa42aa281a2a2779216f19b7ca7f67e92;0xcaf4848584842ab15dfc44e5edafdfb1;0x967b2beb2b2b368a63b431e629dd8d8a;0x705afcb7fcfcff166b47072b3648ee16;0x5480bd50bdbd2ef9d5e494a5c17e43f9;0xe16ca8daa8a8aaa5f37abb322470b4a5;0x6f06b573b5b5caaa6ef96afd02b90aaa;0x39f5edcdeded0982f136579053c4dc82;0x33891a1d1a1ad69150b11ffec6cb5891;0xdb32338e3333d97f6d93f00eaf57567f;0xa0ccab9eabab6ef382a70a2f44f097f3;0xfe30e11ee1e19f19f6c4d6e410815019;0xb2a16a0c6a6ae765dd17a268deeb2065;0x101e247c24246447159b018f0a182247;0x71826fc06f6f689f4eb3b24f7ea8459f;0x87bd9ce09c9cc54453db850d6b250444;0x351cf6ecf6f622218ecc2765b5ce2421;0x382d7eba7e7e9e0bd4c2e2f41b24770b;0x521551a15151da490b99ac3eb27b3f49;0x657a42a3424215b9cf7e229397b68eb9;0xde0ca9e6a9a95797dc31d43904b11497;0x8e6a1da91d1d600f9d83d1cf26c9be0f;0xa8c3b9a0b9b95c31690beb8941fc8631;0xfd9b97879797e541991bca48c8626e41;0x2ea6b637b6b60efc1f24dbe0623929fc;0x01d893779393978925f4b56448e0ab89;0xf8a50def0d0d6ba928b9ee7f63842ca9;0x8c19f847f8f88dded7a87807b6ca2bde;0xbb76eb45ebeb422e134ff6aa93079a2e;0x49af117a1111f6949a7150bb658c3294;0x449e992c99994abec07f952acb6661be;0xbf90e25ae2e25b4f871967f97001734f;0xeff6561556566cd7c6ab620f5279d9d7;0xfc4304f0040472c8bcef7f2c8082c5c8;0x3a5e9b549b9b73da9ee94b3c8b27e2da;0xb10a1c951c1c9d3db2c8bec406081e3d;0xf97d9e989e9efc200d4d5b1b2b648720;0x993946534646677173915dbf17344b71;0xd89945174545a327024ceca277b46827;0xc95ff21cf2f250e932235849354ce1e9;0x619c4bbc4b4b0cd85b28b3c074b067d8;0x3ccb77a57777876a409473a7f8229e6a;0x8927622f62620336660a5c301d2c6936;0x0f426db86d6d51fb10256c593ee9c6fb;0x5c8faf6eafaf1c3b3e487503c472523b;0xbe48712d7171ccc6a2edd29d38e1d8c6;0xc2fb96bb96961873b650a543e8a3ce73;0xc5b6e93de9e97b4a4dd928bcd346194a;0x88fff158f1f194bf43fee95455ccc2bf;0xa11438e93838f97aa753bf4b0c103c7a;0x1d2fac2aacacd86d4f95c41ea4f2716d;0xc7c50cd30c0c969b07f2817443458c9b;0x6cadc3eac3c3b0f201267651da5a34f2;0x85ce790e7979289519f02cc5fb269195;0x9ddf4f4c4f4f7e10e7c7ccecf432a210;0xd33d21b02121ebbd863f11a8aa5b47bd;0xd14ec45ec4c4066ccc14b8603a58d26c;0x1e84dab3dadaa235204ad8b27c114f35;0x3eb8924b92926abb0abfda6f68210bbb;0x8416ea79eaeabf1c3c0499a1b3c63a1c;0x2f7e2540252599753ad06e842ad98275;0x7d6b74e17474433c3149c2ba98a2bd3c;0x74bcf5a8f5f5e677ff119678d54e0777;0x41a003440303c45671ddb11d60802356;0x5066b44fb4b4379841b205f62278aa98;0x21e4db8fdbdb5f070f01b7b95cd0ef07;0x55582e272e2eb970f01021c1899ee870;0xe7f9442b44445e152d0783a95775c815;0xcdb9fb03fbfb4988a675c91ad64a0888;0x0d3188568888bc2a5a0ec591aeea532a;0x7cb3e796e7e7d4b514bd77ded04216b5;0x376f13021313cff0c4e78ead25cdb1f0;0x1a62d3acd3d3bb54b41c49e19f17a654;0xa2bf4e704e4e8322c88ca3e7d4f30222;0xaf8ec626c6c63f08928266767a195108;0xf63ff320f3f3addb1d683742158d41db;0xe8bb299329290fee3d22eff0699c0eee;0x7ec00278020239645e96de1640418364;0x5efc4a804a4af1ea7463dccb5471c7ea;0xfad6e801e8e88678629247b7f387b978;0xb5ec158a1515845c269e2f97e50ef75c;0x929d22f422222febf7e2a0b5cadb64eb;0x56f358be5858c3289fcf3d6d517dd628;0xf1728ca68c8ccee2e6e1babd2e6896e2;0x04e6091f0909196194569153e306e961;0x6ede260426265d234b0ddf994a59a123;0xa5f231f63131e01b33052e18ef16d51b;0xe621d75cd7d7c99c08f336cd1f95639c;0xc887616b6161c76017d7ed2d7dac4a60;0x7bfe98109898b78cef34fa21eba7c18c;0x73f18a2e8a8a854e04981b87eeabd04e;0x51be27382727a0116446b0926a980111;0x95d05d725d5d4cd20c6b2d4af13eb3d2;0x66d1343a34346fe1a0a13e3f4f55b0e1;0xd603bbd8bbbb6555379d359f01bd0555;0x5bc2d0e8d0d07f02c5c1f8fcff978502;0xe31f4d344d4d4774b95112fab4732174;0x63efae52aeaee10911031a08e4b3f209;0x9b4aa3bda3a38aa039baf4778737dea0;0xbde307b40707b69ecd32ce31e002e69e;0x7717833183839c2f90ce8ad40dad392f;0x8dc16b306b6b1a57f25ccd63fe2a8057;0xbc3b94c394942117e8c67b55a8e24d17;0xf301694869692333acca1375be6b0333;0xf44c16ce1616400a57439e8a858ed40a;0x26a9a409a4a43c3ef4883a466735383e;0xd4705e365e5e88847db69c5791be9084;0x80f0e366e3e3a67da85208f250c0d37d;0x9345b183b1b1b862d21615d1823bcf62;0xb64763136363fe044941333b3dedc904;0x1520be14bebeeaafa43925b8a1fe60af;0xcc6168746868de0183817c7e9eaaa301;0xac25b0bfb0b04550fd5d7adaa2fa6f50;0xc150e022e0e0622bd98fb9ef3040f02b;0xee2ec562c5c5fb5ee35fd76b1a99725e;0xae5655515555a881b776d31232f9fa81;0x9c07dc3bdcdce999c2337988bcd20999;0xd941d660d6d634ae27b859c63f54c3ae;0xa367dd07dddd14abed7816839c13a9ab;0x2502d290d2d246669b5726eabfd60666;0xeb105f0a5f5f75b652fdf35cb17f30b6;0x40789033909053df54290479286088df;0x4877820d8282611dbf85e5df2d6c991d;0x6d75509d5050277b24d2c33592ba9f7b;0x28335ac65a5afa4cc159e37b113c554c;0xffe8726972720890d33063805861fb90;0x0a7cf7d0f7f7df13a187486e950f8413;0x4f3afd8bfdfd0224440c682016894e24;0x19c9a535a5a5c10cdbc3554d47f4980c;0x53cdc2d6c2c24dc02e6d195afa9b94c0;0xf59485b98585d78372b72beecd6e7f83;0xb9050eab0e0eafff59645f6203040fff;0xcb2c17f21717bd387808f181a54f7438;0x45460a5b0a0add37e58b204e8386ca37;0x572bcbc9cbcb54a1ba3b8809199d7da1;0xd7db28af2828f2dc126980fb495daedc;0x684bcaf5cacaa9939570e702395cdd93;0x4c918b128b8b787c2bd3748cce6a707c;0x203c48f84848c88e2af502dd1430448e;0x4a0467e367678cccf5ae4c17bd6f0ccc;0x053e9a689a9a8ee8b1a22437abe642e8;0xc61d9fa49f9f0112220634100ba52712;0x14f82d632d2d7d2681cd90dce91ecb26;0x9e7439d5393904488818d0402cd19c48;0xd5a8cd41cdcd1f0d58422933d95e3b0d;0x4d4918651818eff50e27c1e8868adbf5;0xce128d9a8d8d33d0c9aad5b60ea936d0;0x5a1a439f4343e88be0354d98b7772e8b;0x3f60013c0101fd322f4b6f0b20c1a032;0x8a8c14b61414796e09d5409cc5cf576e;0x835b95ff9595dc25c78d145e8823ed25;0xc32305cc05058ffa93a41027a04365fa;0x00000000000000000000000000000000;0x9408ce05cecedb5b299f982eb9de185b;0x1f5c49c4494935bc05be6dd634f1e4bc;0x98e1d524d5d5f0f85665e8db5fd4e0f8];
   [0xab5f0fc597097cc942c539bdfd8187fe;0xbba5cede05dd1cf812de4561c3dfcc2b;0x8315cf1f39088c52ca1fffa89e12d51c;0x0de599662cc32ed2396656242b055f06;0x3a3eb0fabf2e9c05d2fa54332ab62865;0x4a9db2bbc7477f92a1bbe36290ef1a0b;0xe8f8856eb9b83514ce6e93cca89da057;0xeb318da99adf3f0dc1a90a4b053a682c;0x8fb7ef85b557a436f685def16fcb7333;0xbe3dd654607402d303542d2bf7f557a6;0x0f6b285daf38227d335db8de5c7e6e54;0x6dbc5a3cc67ead741a3c9da9af0226bd;0x0af330d7ca913c5622d7d0946854f5d9;0x290d79260e9df62d8d26b168b94fabcb;0x17ec68aa748672b54baafa6c7d0fe10a;0xb01147f56fd0261835f5e2887157c0db;0xc52a5d3e7210dba4573e3d93ff246938;0x4ccca2f681896ba0bff612af096249fd;0xc37b4d7334decf964973cc5e66a93ace;0xb5895f7f0a793833247f8ac2457d5b56;0x747ca337bd5cfb0a6737a86654af50ca;0x94f9a7b54d8efee781b505c4e31d3416;0x1d1f587dbe174ee3697d2af8155b14d3;0x25af59bc82c2de49b1bc903148960de4;0x4813038044bc733dab800d98e7942b59;0xdabbb4784ffc99e83478f9919d044cb9;0xddad1dc9a9ae8b6c2fc97f21de55e666;0xe9bf3c92192433a2cb92e4b17241597e;0xea7634553a4339bbc4557d36dfe69105;0x736a0a865b0ee98e7c862ed617fefa15;0x2e1bd097e8cfe4a9969737d8fa1e0114;0xf5e7dd1307af7bf7a713b934bdc6b484;0x2666517ba1a5d450be7b09b6e531c59f;0xd04884af856da5be16af2905f550b960;0xc46de4c2d28cdd1252c24aee25f89011;0xf3b6cd5e41616fc5b95e48f9244be772;0x7b178b6a1264d977546a10b808d13e9e;0x4d8b1b0a21156d16ba0a65d2d3beb0d4;0x45f69ae6687f5def92e65bbccc91745f;0xa9d1befe14f2706648fed7478afab6ac;0x5eb8d2d690a6073ee5d680894047337a;0xd8350543cc0795473e43176bea7f7deb;0x7e8f93e077cdc75c45e078f23cfba513;0xf2f174a2e1fd6973bca23f84fe971e5b;0x902606c388bbe67a95c31af30deb56b2;0x77b5abf09e3bf11368f031e1f90898b1;0x535d4bb0bc6529ecdcb0d6ad6b426c7c;0xe51d1c08957b1bc6f708c5e88398ff51;0x4954ba7ce420758bae7c7ae53d48d270;0x985b872fc1d1d683bd2f249d12c49239;0x1333c9dcb1b36a285fdce55b93f983ae;0x43a78aab2eb149dd8cabaa71551c27a9;0xdceaa43509328dda2a35085c04891f4f;0xc7a4ec05f1ebd70b5d05d369885f586a;0xa0eb86eefd04462965ee9e544f098b0e;0xcc10652e9be6edeb7a2e74803ad7549a;0x1425606d57e178ac446d63ebd0a82971;0x521af24c1cf92f5ad94ca1d0b19e9555;0x2f5c696b4853e21f936b40a520c2f83d;0x47782bddeb84514098ddb546bbea450d;0xa6ba96a3bbca521b7ba36f99d684d8f8;0x5fff6b2a303a0188e02af7f49a9bca53;0xe34c0c45d3b50ff4e94534251a15aca7;0xb86cc61926ba16e11d19dce66e780450;0xa7fd2f5f1b5654ad7e5f18e40c5821d1;0xc0b245b417b9c58f46b455d9cb0ef2b5;0x23fe49f1c40cca7baff161fcd11b5e12;0x2ac471e12dfafc3482e128ef14e863b0;0x62d7726169468f0929612577f37c48e9;0x7d469b2754aacd454a27e175915c6d68;0x318a39d1d523a6e5f5d1f3da983e2495;0x30cd802d75bfa053f02d84a742e2ddbc;0xc1f5fc48b725c339434822a411d20b9c;0x20374136e76bc062a036f87b7cbc9669;0x8a2ff70fd0feba1de70fb6bb5be1e8be;0xd75e2d1e633fb73a0d1eafb5b60113bf;0x3d28194b597c8e81c94bd28369e782ba;0xbf7a6fa8c0e8046506a85a562d29ae8f;0xc6e355f95177d1bd58f9a4145283a143;0x722db37afb92ef38797a59abcd22033c;0xdbfc0d84ef609f5e31848eec47d8b590;0x1562d991f77d7e1a419114960a74d058;0x991c3ed3614dd035b8d353e0c8186b10;0x4bda0b4767db7924a447941f4a33e322;0x3412215bb08ab8cee45b9b90ac14bf18;0x6059c35aeabd83a6235acb8d840779bb;0x92a8b7f80b40ead59ff8f4097a9067e0;0xac49a674715b6e4d5974bf0dbed02d21;0x6e7552fbe519a76d15fb042e02a5eec6;0xa1ac3f125d98409f6012e92995d57227;0x819b7e24baf380fdc0241152e969e44e;0x3b7909061fb29ab3d706234ef06ad14c;0x19c0f90b7b22567e7d0b35cffbad7677;0xe45aa5f435e71d70f2f4b29559440678;0x2c9561ac6b34e8069cacd9228d653046;0xbdf4de93431308ca0c93b4ac5a529fdd;0xb64057b8291e322a2bb81345e8da932d;0xd3818c68a60aafa71968b08258f7711b;0xe793ad3316801769fd332b12f4e3ce03;0x9b928fe8e2b6dc9ab2e8bd1abf635a42;0x8c7ee7429630ae2ff9424776c26cbb48;0x04dfa176c535189d14761f37eef662a4;0x868dd7955ca19279db9597e2aa384e91;0xefee2cdf5fea2790d5df157cebcc0a88;0x32433116f644acfcfa166a5d3599ecee;0x0bb4892b6a0d3ae0272ba7e9b2880cf0;0x9e0a9762871fc2b1a362d5508b49c1cf;0x80dcc7d81a6f864bc5d8662f33b51d67;0x1c58e1811e8b48556c815d85cf87edfa;0xb156fe09cf4c20ae300995f5ab8b39f2;0xd49725d94058bd2302d936321ba6dbc4;0x7a503296b2f8dfc1519667c5d20dc7b7;0x5b20ca5cf50f1915f45ce8c3746da8f7;0xa3228e29de634c306a2907d3e2ae4375;0xf945fd898bf053939b89986d4c1f12ab;0x330488ea56d8aa4affea1d20ef4515c7;0x682442b6a3d7b35f0bb6f5e39b28bd30;0x9677168ece75f2488b8eeb3e94660544;0x463f92214b1857f69d21c23b6136bc24;0x028eb13b83fb0caf0a3beefa777b3152;0xff14edc4cd3e47a185c469a0d592415d;0x95be1e49ed12f851844972b939c1cd3f;0x6486622c2f889b3b372cd4ba6af11b1f;0x406e826c0dd643c4836c33f6f8bbefd2;0x41293b90ad4a45728690448b226716fb;0x16abd156d41a74034e568d11a7d31823;0x0e2c91a10fa424cb36a1cfa386a2977d;0xb92b7fe58626105718e5ab9bb4a4fd79;0xfd9a5cff4ec54b0e8fff875aa2e9700f;0x6f32eb074585a1db10077353d87917ef;0x9161bf3f2827e0cc903f6d8ed737af9b;0xa5739e6498ad58027464f61e7b231083;0xcfd96de9b881e7f275e9ed0797709ce1;0x56c5533ad9cc37c7cd3abee75f68f7f1;0xbae27722a5411a4e1722321c19033502;0x611e7aa64a21851026a6bcf05edb8092;0x188740f7dbbe50c878f742b221718f5e;0x544be2015a373b68c701501d2813c6a3;0x8b684ef37062bcabe2f3c1c6813d1197;0x3ee1118c7a1b8498c68c4b04c4404ac1;0x5a6773a055931fa3f1a09fbeaeb151de;0xce9ed415181de14470159a7a4dac65c8;0xf7696c2884547758ad2857cecabd85d6;0xd2c635940696a9111c94c7ff822b8832;0x825276e399948ae4cfe388d544ce2c35;0xb3d84f324cb72c013a327b0fdcf008a0;0xb4cee683aae53e852183fdbf9fa1a27f;0xd61994e2c3a3b18c08e2d8c86cddea96;0xe1c2bd7e504e035be37edadf6d6e9df5;0xc23cf48f9442c9204c8fbb23bc75c3e7;0x5d71da11b3c10d27ea11190eede0fb01;0xfa8cf54ea897598a944e01eae1b8dad0;0xa434279838315eb471988163a1ffe9aa;0x1f91e9463dec424c6346c40262202581;0x0ca2209a8c5f28643c9a2159f1d9a62f;0x0147b9fca09c06b605fc777ddadcf929;0x2dd2d850cba8eeb09950ae5f57b9c96f;0x674f6aeb0cef912238eb4d3dc756d364;0xe20bb5b973290942ecb94358c0c9558e;0x093a3810e9f6364f2d104913c5f33da2;0x5782eac679503171c8c6c99a85b40ed8;0x11bd78e73248668755e70ba1e482b2fc;0xb707ee448982349c2e44643832066a04;0xdf23acf22a5587c325f291dba92ed734;0x6aaaf38d202cbff0018d1b19ec538c62;0x93ef0e04abdcec639a048374a04c9ec9;0x24e8e040225ed8ffb440e74c924af4cd;0x7fc82a1cd751c1ea401c0f8fe6275c3a;0x6608d317ac7397943d173a401d8a2a4d;0xfe5354386da2411780381edd0f4eb874;0x0716a9b1e65212841bb186b04351aadf;0x44b1231ac8e35b59971a2cc1164d8d76;0x3fa6a870da87822ec3703c791e9cb3e8;0xf80244752b6c55259e75ef1096c3eb82;0x0651104d46ce14321e4df1cd998d53f6;0xca417563dd28f9d96463854da35a076c;0xad0e1f88d1c768fb5c88c870640cd408;0x2b83c81d8d66fa82871d5f92ce349a99;0xaec7174ff2a062e2534f51f7c9ab1c73;0x22b9f00d6490cccdaa0d16810bc7a73b;0x39f7b83d9c49961cdd3dcdb48711e01e;0xde64150e8ac98175200ee6a673f22e1d;0x1ed650ba9d7044fa66bab37fb8fcdca8;0xa8960702b46e76d04d02a03a50264f85;0x58e9c29bd668130cfb9b7144d9ca608c;0x88a146345305b6b2ed3458412c9ad9ec;0x9ad53614422ada2cb714ca6765bfa36b;0x6963fb4a034bb5e90e4a829e41f44419;0x284ac0daae01f09b88dac615639352e2;0x65c1dbd08f149d8d32d0a3c7b02de236;0xd5d09c25e0c4bb950725414fc17a22ed;0x7c0122dbf436cbf34fdb96084b809441;0xbcb3676fe38f0e7c096fc3d1808e66f4;0x38b001c13cd590aad8c1bac95dcd1937;0x4f05aa31a2ee61b9b0318b28a4c58186;0xe0850482f0d205ede682ada2b7b264dc;0x2721e8870139d2e6bb877ecb3fed3cb6;0x76f2120c3ea7f7a56d0c469c23d46198;0x78de83ad3103d36e5bad893fa576f6e5;0x89e6ffc8f399b004e8c82f3cf64620c5;0x8d395ebe36aca899fcbe300b18b04261;0xaf80aeb3523c645456b3268a1377e55a;0x9f4d2e9e2783c407a69ea22d519538e6;0x840366aedf5a9ed6d1ae7918dd437fc3;0xe6d414cfb61c11dff8cf5c6f2e3f372a;0xf1387c65c29a636ab365a6035330d620;0x6390cb9dc9da89bf2c9d520a29a0b1c0;0x51d3fa8b3f9e2543d68b38571c395d2e;0xc8cfc4585ed3f5766e586bb7d421363e;0x03c908c723670a190fc79987ada7c87b;0xed609de4dc112b3fdfe4fb869cb73bda;0x70a302417869e3977341b751ba59326e;0x3c6fa0b7f9e08837ccb7a5feb33b7b93;0x8ef0567915cba280f379a98cb5178a1a;0xd972bcbf6c9b93f13bbf601630a384c2;0x10fac11b92d46031501b7cdc3e5e4bd5;0x1a09f1cc58455c6772ccac48560abe0c;0x9dc39fa5a478c8a8aca54cd726ee09b4;0xeea99523ff762126d02362013110f3a1;0xcb06cc9f7db4ff6f619ff2307986fe45;0x9730af726ee9f4fe8e729c434ebafc6d;0xc9887da4fe4ff3c06ba41cca0efdcf17;0x79993a51919fd5d85e51fe427faa0fcc;0xb29ff6ceec2b2ab73fce0c72062cf189;0x355598a71016be78e1a7eced76c84631;0x6cfbe3c066e2abc21fc0ead475dedf94;0x9c84265904e4ce1ea9593baafc32f09d;0x1b4e4830f8d95ad17730db358cd64725;0x0598188a65a91e2b118a684a342a9b8d;0x509443779f0223f5d3774f2ac6e5a407;0xf07fc599620665dcb699d17e89ec2f09;0xd10f3d5325f1a30813535e782f8c4049;0x12747020112f6c9e5a20922649257a87;0x87ca6e69fc3d94cfde69e09f70e4b7b8;0x087d81ec496a30f928ec3e6e1f2fc48b;0x59ae7b6776f415bafe670639031699a5;0xfcdde503ee594db88a03f02778358926;0x2170f8ca47f7c6d4a5ca8f06a6606f40;0x8544df527fc69860d4520e65079f86ea;0x550c5bfdfaab3ddec2fd2760f2cf3f8a;0x4e4213cd0272670fb5cdfc557e1978af;0xec2724187c8d2d89da188cfb466bc2f3;0xfbcb4cb2080b5f3c91b276973b6423f9;0x369c90603371b461ee60756adb6f8e4a;0x753b1acb1dc0fdbc62cbdf1b8e73a9e3;0x37db299c93edb2d7eb9c021701b37763;0x5c3663ed135d0b91efed6e73373c0228;0xf62ed5d424c871eea8d420b310617cff;0xf4a064efa7337d41a2efce49671a4dad;0xcd57dcd23b7aeb5d7fd203fde00badb3;0x6bed4a7180b0b94604716c64368f754b;0xa26537d57eff4a866fd570ae3872ba5c;0x00000000000000000000000000000000;0xaa18b63937957a7f47394ec0275d7ed7;0x71e4bbbdd8f5e52176bdc02c6085cb47;0x42e033578e2d4f6b8957dd0c8fc0de80];
   [0xc236bfb8b8edf8a5ff6a2da54a84525c;0x958bd19a9a0a382d73c62f2d9724db4d;0xa63054eded72db3262a72832bc572697;0x27cf125353585c8f1d07498fe1724ac8;0xe0e4f8e2e2bdfb0ee195960e78674571;0x8651310c0c4dfe30c35798302e817c06;0x0616660e0eb16a3802111d38235fd707;0x5d87c43030f77ec08a9f25c0b8413318;0x0931991515a98b5407dac854952f30eb;0x78fbf4d8d8c004e6289767e6f906346c;0xf4906fc6c69d449eedf3d89eb266f263;0x16c7b59f9f4f9939b36945396a34faae;0x19e04a8484577855b6a29055dc441d42;0xecc834fefe1c2f7ee5b7ac7e3ed9287f;0x699236f5f5e8e4522709db52e096de9b;0x04a544b5b5de4c91bd1e1691836a9abb;0x8f60a81919e47564c48d5064bbae4ced;0x30b0b67070c1d6031088e803dbbd7738;0x39812f6565685d57175220574e9247d3;0xe9d561f7f714705ae64f5e5aed48759a;0x030b330707b9351c01e9ef1cf0ce8ae2;0xcfa26218189a3f6045aef3605cc1f80c;0x70727c7171bf9c0791ab4b073cd2c3d9;0x43c9f90606c77f1880ca4c1817a13e03;0x550e4c999988e62133a309217d95c4ad;0x2c4da9fdfd9ef172a5d28a72d468379f;0x1262f12a2a91d5a80e7753a8e95e6015;0x8ed8b9a5a53266d17a6bb4d1eb558bb3;0xd5491b9b9b747229f2e58c29704b6fac;0x3d246bd0d0b611c6aa4c36c6cdf8dd68;0xd2e76c2929130ba44e1275a403ef7ff5;0x76641a7f7f0ef63f93ba563f1f8d14de;0x18585b3838816be0084474e08cbfda1c;0x35ade37979c9892713701a27082c2add;0x07ae77b2b267798dbcf7f98d73a41059;0xc0859d030382de0c4065260ceab11fe0;0xf79b5cc1c1247182ec1a378242a87881;0xb87e69dbdb42daea68f241ea13b72b8c;0x72c15ecacad0baae2ea440ae9ce78e65;0x1169c22d2d28e0b40f9ebcb41990eaf7;0xb452a5c7c7e30e9a6cd07b9a55094682;0xff12d468685be96355261b63877c8f34;0x1aeb798383ee4d49b74b7f492c8a97a0;0x484b42a8a801d2e5381f8fe522bb4354;0xaa1c98f1f1d30f4266851242fae94b99;0x589a913939ff21e48967d7e46bd06efd;0x939db79494bb521571d73215b47b0c4a;0x21d9745d5de936b71f1654b7c22d9dcf;0xddc09332320beac84bd9a0c8b59f9819;0x60a3afe0e0416f0620d3130675b9ee70;0x0c2ccc1c1ca1d47004223a7046be6d0e;0xc420d9b6b65c929dfd7b309d69db855b;0x9aac2e818112d941760dfa4121543ca1;0x5c3fd58c8c216d753479c175e8baf446;0x53182a9797398c1931b214195eca13aa;0xcd1140a3a3f519c9faa1f8c9fcf4b5b0;0x320394cbcbaef0aaaf87e3aa7b883a84;0x1b53683f3f385efc09ad9bfc7c7150fe;0x5a29b3828290074d3668dc4dcbe52341;0xa19e235f5f15a2bfde50d1bfcff336ce;0xe5f9adebebb5a42ae26d642aabf61894;0x3c9c7a6c6c60027314aad2739d031a36;0x9738f32121651e84ccc92484371196f1;0xce1a73a4a44c2cd5fb4817d50c3a3f52;0x6d3772404036a8c39a17cdc363fc4420;0x62108d5b5b2e49af9fdc18afd58ca3cc;0xf5287e7a7a4b572b53153c2be29d353d;0xb75996c0c05a3b866d399486a5c7cc60;0xe257da5959d2dda75e9a9da7d85208cd;0x417adbbdbda859b13fc547b1b79473bf;0x71ca6dcdcd698fb22f4dafb26c290487;0xf904b26666ea835b5737065ba4235833;0xeade52f0f0ad4546e7a6b1461d86ff78;0xaeb9dc44440d43d3db9b04d37983d122;0xe441bc575763b79f5c8b809ffb0ddfca;0x0b82bbaeaec6adfdb8d5c3fd351a7d57;0xdecba03535b2dfd44a304fd4455112fb;0xf0352b737343080f50edce0f310c68d8;0xd4f10a2727a2619c4c03689c20b0a8f2;0xb5eab47b7b351d2fd2369f2f05f281dc;0xa4837656561dfd9bdda8239b1c626b2b;0xbacd4b60602dfc43d7fd4a43b3826630;0xe86d704b4bc263ef58a9baefbdb3b2c4;0x0e9feea7a7cef2d9bb2d31d9e68b20b2;0x9cba488f8fa3b379741ce779020beba6;0x3108a7cccc17c5b6ae6e0cb68b46b066;0x7943e5646416175396718353a9fdf332;0xfc19e76f6fe2dc7f54cff47f77b205d6;0x4d5617a1a1098dc13be77dc1f12a1eb1;0xdbd6f53c3cba80f049c8bdf096c04f1e;0x756f297878b7c3239253b923ef439e3c;0x682a2749493ef7e799ef3fe7b06d19c5;0x15cc869898f6ac25b280aa259afa704c;0xa917abf6f66a3a5e676cfd5e0a27c17b;0x01b811bcbcd613b5bee6e4b550fbc75e;0x236a56e6e686101ea0195f1e6218d073;0xb244c3c9c95264a26ec166a276569185;0x6e3c4147478f9ddf9bfe22df9332cec2;0xf28609c8c82c2ea6efe2c5a691392564;0x3b320ddede077bfea85d2bfeeea70a6f;0x52a03b2b2bef9fac8f54f0ac0e31d4f4;0x65befae9e9493022232be122a628b395;0x4b4071afafb8e7f939f660f9d275c9b6;0x38393ed9d9be4ee2a9b4c4e21e69808d;0x2a5bcff3f32f9b4aa7c3974af737e098;0x912e952f2fd474bcced839bc144e41f6;0xd642289c9ccd4735f30c63358085e54e;0xfda1f6d3d334cfcaea2910ca2749c288;0xf8bca3dada3c90eee9d1e2eef4d89f6d;0x8c6b9b1e1e5d4078c564bf784b60c60f;0x501319909080b905305bfb05ae049948;0x7f55836a6aa77d6b94609e6b8aa22435;0x5922808585293251378133513b2ba9a3;0x088988a9a97f98e1b93c2ce1c5d4f7b5;0xd965d78787d5a659f6c7b65936f502a2;0xa295105858ac97a3dfb93ea33f3dbc2c;0xfbb790dddd85a5f2e8380df20416158f;0x1cfd1f8d8d5f2771b55a62710fd540a7;0x2950fcf4f496ae56a62a785607f96a7a;0xd35f7d9595c51811f0f491115314b8ab;0x6f8450fbfb598e6a2518c66ac3c9099c;0x476cbdb3b31933893dd45a8994cba4b8;0x54b65d25255ef5948d45ed942d6e03f3;0x9fb17b88881a866575f50865f2c56144;0x177fa42323998a8c0d8fa18c3acf3df0;0xe15ce95e5e6be8bb5f7372bb289c822f;0x7c5eb06d6d1e4877958971777a6caed7;0x46d4ac0f0fcf203c8332be3cc43063e6;0xbcdb2d6e6e9c967bd5ec577b90ddb137;0xc598c80a0a8a8128439dd42839204205;0x22d2475a5a5003ab1effbbab32e3172d;0xbe680fd5d5f3b0d26ae35cd230e8fc8b;0x9680e29d9db30d31722fc03167ea51af;0x7eed92d6d6716ede2a867adeda59e36b;0x1d450e31318934c40bbc86c45f2e87f9;0xb9c678676794c95fd614a55f434cecd2;0x9d0259333375a0cccafa03cc52f02cf8;0xadb2ef4343b476cfda72ebcf894d5bc0;0x6c8f63fcfce0bb7624f129763307837e;0x855a020b0bf4cb2cc2be772cde4ff6e4;0xd1ec5f2e2eaa3eb84ffb9ab8f321f517;0x1e4e3d36363001d80a5569d8afe00d1b;0xa53b67eaeacbee2e634ec72e4c99ac75;0xe6f29eecec0c9136e3848b365b389276;0x2efe8b4646f1d7db1add81db745d7a23;0x5f34e68b8b98586935902e6918747ea4;0x611bbe5c5c977cb39e35f7b32542292e;0x834c64050545a114c0af6a14fd1021e3;0x44678eb4b4a006953c3db59564052e5a;0xb14ff0ceceeb51be6f2889be86981b67;0xefc307f9f9a51a62e45e4362ce17a29d;0x82f475b9b993b2a17e498ea1adebe6bd;0x36a6d07e7e70bc3b1299f53bf8e2a03f;0xa32d01e4e47a8416615fda166fc67b72;0xaf01cdf8f8db5066657de0662978167c;0x88cedfabab830ce9787aa9e9c80a5cb4;0x8976ce1717551f5cc69c4d5c98f19bea;0x0f27ff1b1b18e16c05cbd56cb670e7ec;0x1ff62c8a8ae6126db4b38d6dff1bca45;0x4271e8baba116cad3e2ca8ad475af95d;0xf6234d7d7df2623752fcd3371253bfdf;0xdf73b1898964cc61f4d6ab6115aad5a5;0x3a8a1c6262d1684b16bbcf4bbe5ccd31;0xc13d8cbfbf54cdb9fe83c2b9ba4ad8be;0x28e8ed484840bde318cc9ce35702ad24;0xf18d3acfcf951bbaee0b2aba61f7af86;0xcb0726adad4473f1f8b0e5f1dfab62b7;0x9225a628286d41a0cf31d6a0e480cb14;0x87e920b0b09bed857db17c857e7abb58;0xe74a8f5050da82835d626f830bc35528;0x3e2f58d7d70f24daaba5d9da3d36578a;0xfa0f81616153b64756dee94754edd2d1;0x0d94dda0a077c7c5bac4dec51645aa50;0x51ab082c2c56aab08ebd1fb0feff5e16;0xb6e1877c7c8c2833d3df7033f53c0b3e;0x7bf0c7dfdf7931fa297e88fa09c8be8e;0x74d738c4c461d0962cb55d96bfb85962;0x3f97496b6bd9376f15433d6f6dcd90d4;0x2f469afafa27c46ea43b656e24a6bd7d;0x7de6a1d1d1c85bc22b6f95c22a976989;0xbb755adcdcfbeff6691baef6e379a16e;0x49f3531414d7c15086f96b507240840a;0x2be3de4f4ff988ff192573ffa7cc27c6;0x99a71d8686abec5d77e4155dd19ab643;0x02b322bbbb6f26a9bf0f0ba9a0354dbc;0x371ec1c2c2a6af8eac7f118ea8196761;0xb3fcd27575847717d027821726ad56db;0x73794f767606a91b9042a41bcc1c493b;0x6406eb55559f23979dcd0597f6d374cb;0xdc78828e8eddf97df53f447de5645f47;0xd8ddc63b3b03b5ec482152ec660ec5fc;0xc9b40416162b555847bfee587f9e2f0b;0xaba4894d4d051cf7d863f6f7aa128cc7;0x33bb85777778e31f1161071f2b73fdda;0x6b21144e4e87c2fb9806d0fb40a39327;0xcca9511f1f230a7c44471c7cac0f72ee;0x9096849393026709703edd0944b586a8;0xd0544e92927c2d0df11d7e0da3da3249;0xac0afeffff62657a64940f7ad9b69c9e;0xbfd01e696925a367d405b86760133bd5;0xda6ee480806c9345f72e5945c63b8840;0xa788455151a4c887dc41cc87ecace1c9;0x5e8cf737374e4bdc8b76cadc488fb9fa;0x981f0c3a3a7dffe8c902f1e88161711d;0x7a48d66363af224f97986c4f593379d0;0x13dae0969647c61db091b71db9a5a74b;0x6a9905f2f251d14e26e0344e10585479;0x40c2ca01017e4a048123a304e76fb4e1;0xa8afba4a4abc29ebd98a19eb5adc0625;0x5b91a23e3e4614f8888e38f89b1ee41f;0xeb66434c4c7b56f3594055f34d7d3826;0x66b5c9eeeef0053e22c20e3e56e63977;0x56057f9e9e31d33d324ae63d8d5b4e4f;0x81ff46bebe2a87bd7fa061bd5d256c5f;0x77dc0bc3c3d8e58a2d5cb28a4f76d380;0x57bd6e2222e7c0888cac0288dda08911;0x4e5d24a6a6b0b8dd3a0e92dd01e49453;0x8dd38aa2a28b53cd7b825bcd1b9b0151;0xb0f7e172723d420bd1ce6d0bd663dc39;0xf33e187474fa3d1351042113c1c2e23a;0x9433c02626dc2b98cd20cb98c7df1c13;0x206165e1e13f2502a1f0b00292d65a91;0x24c4215454e169931ceea69311bcc02a;0xd7fa3920201b54804dea8780d07e2210;0x147497242420bf900c664e90ca01b712;0x9e096a3434cc95d0cb13ecd0a23ea61a;0x051d550909085f2403f8f224d3915de5;0xc693fb0d0d33b43442743b34c9eec8e7;0xed70254242ca3ccb5b5148cb6e22ef21;0xc80c15aaaafd46edf9590aed2f65e855;0x9b143f3d3dc4caf4c8eb1ef471affbff;0xbd633cd2d24a85ce6b0ab3cec0267669;0x84e213b7b722d8997c5893998eb431ba;0xc38eae04043beb10418cc9101a7f9502;0xcabf371111926044465601448f50a5e9;0x8a7dfd1010ec2a40c775a240683f1108;0x3415f2c5c51f9a92ad96fe9258d7ed83;0x267703efef8e4f3aa3e1ad3ab1898d96;0x10d1d39191fef301b1785801496b2da9;0x257c30e8e8377a26a208422641470774;0xe3efcbe5e504ce12e07c791288a9cf93;0x63a89ce7e7f85a1a213afc1a85776492;0x0a3aaa121210be480633274865e1ba09;0x4fe5351a1a66ab6884e87668511f530d;0x8bc5ecacac3a39f5799346f538c4d656;0xc72beab1b1e5a781fc92df8199150fb9;0x670dd8525226168b9c24ea8b061dfe29;0x2df5b8414148e2c71b346ec78493f0c1;0xfeaac5d4d48dfad6ebc0ffd6d787486a;0x45df9f080876152082db512034fee904;0xa02632e3e3c3b10a60b6350a9f08f190;0x8047570202fc9408c14685080ddeab01;0x00000000000000000000000000000000;0x4af86013136ef44c8710844c828e0ee8;0xee7b1645457309d75ab8a7d79eec65c3;0x4cee061d1ddf9e7485019974a1d1d9ef];
   [0xd8ca2018a65b9caf78d91d808c853b8c;0x6910514cc5066818bf31b787a17cf5a1;0xc0d01b9ab02ecdb8b7bedf6c21290321;0xbaffe6aba289d96142a1dc1eaa6960aa;0x164aed3d416b5a6fc992ec32cde39fcd;0x87097952ab3bd3ecd94f3c270e49b00e;0x58eb32f4c76fab7fa20d36c8b20a39b2;0x5924278be9ecca36e2fff09c38e78538;0xc46a4fa508678a5f74f041ff4c1bb64c;0x6a826ecdb740cbc37fe43e7bfc88f2fc;0x0575414096ca26ae83bc58c7e7df09e7;0x9a6603902b84a4559594a60c443a8144;0x06e77ec1e48c85754369d13bba2b0eba;0xa65f89160cb5cf914e8880616af7ed6a;0x0dc2e93e2558a8a3c620a7223dbba03d;0xd1b29d193b4a73eb7db72431dc0c2edc;0x436336f7a35c59b3adbf7dd842520642;0x855453acf7fe117e5968738fd9500bd9;0x413e1c09ff999b212d983270954bbd95;0xd220a298490cd030bd62adcd81f82981;0x2c94197a82d6b4de51e71b645905fd59;0xcd12f2a49576651b719e784e1c92a31c;0x0b2597ffc1d42dd6854976198790ae87;0xa2e5dd29b4fc88768dc61ef207c55807;0x3883deb99f782c231852b8fe43ffd943;0xf7cc06e356cb8baae9eb8f188874c188;0x4bd49e8910ced7bee823823d9836af98;0xe6ae8060ddaf35f923e274457551ec75;0xe761951ff32c54b06310b211ffbc50ff;0x908c8110c4d3e8ca502f164149479349;0x1a47117c4ab093854f408d447ab5837a;0x53cea50b06bb86a9274440d1359a9735;0xa32ac8569a7fe93fcd34d8a68d28e48d;0xf12b7822b2470edfaa825e23325fcf32;0xfd268463b99cc7352c503f558509d385;0x51938ff55a7e443ba7630f79e2832ce2;0x29e1583a141c9270d25b43a3bedaf4be;0x3b11e138ed3e8ff8d88731021e0bde1e;0x827c38123df1f5425af364e0e996b9e9;0x674087f392186360b9c49959c13352c1;0x8b048513a0e01a065f9d5d51b91facb9;0x4846a1086288746528f60bc1c5c2a8c5;0x2a7367bb665a31ab128eca5fe32ef3e3;0xefd63d6140bedabd268c4df425d8f925;0x70c57fb1fdf0584630a4b33f863d7186;0x2d5b0c05ac55d5971115dd30d3e841d3;0x31fb63b80269c3671d3c814f1376cc13;0xe214d45f65e6721ee0acead618635918;0x86c66c2d85b8b2a599bdfa7384a40c84;0xc9a8a69b2d3f22fcb2d0e6dd71a01671;0xb015642b4dde95fe871a6c53a71472a7;0x802112ec613437d0dad42b483e8f023e;0xf5912c1d0a0e493869ccc0b05f6d7a5f;0xfce9911c971fa67c6ca2f9010fe46f0f;0x6068ec4d5817875cba5f8e36f1f5e0f1;0x444b5d496953bd8fae246ab77294b472;0x0c0dfc410bdbc9ea86d26176b7561cb7;0x8fbed12c18a95de19cd3c3c2d42d19d4;0xa402a3e850700d03ceafcfc9bdee56bd;0x3df69ff909b20a8d9beee039a420d0a4;0x6235c6b304d245ce3a78c19e26ec5b26;0x35413787ba208480de721fdc7e44797e;0xe049fea13923b08c608ba57ecf7ae2cf;0x68df4433eb850951ffc371d32b91492b;0xdc7074271e12db48bb978313e1b78ee1;0x40f10976d11afa686d6af4241fa6011f;0xa0b8f7d7e8394ae40de1515ad0dce3d0;0xa7909c692236aed80e7a4635e01a51e0;0x9f1342d0bd4e82fb1628fecba3e588a3;0x2bbc72c448d950e2527c0c0b69c34f69;0xaee82168bf27419c0b147f84b09344b0;0x10ad93fca5e7df1a8afb3d0977c89177;0xfeb4bbe2cbda64eeec85b6a9d8fdd4d8;0xa177e2a8c6ba2bad4d13970e5a315f5a;0xc7f870247a212984b425c80311efb111;0x4d33e048f44252cbab4a5306221da122;0xaa527557076e067bc85ae117dda1f1dd;0xd4c7dc59ad805545fe0b7cf63bd3273b;0x42ac23888ddf38faed4dbb8cc8bfbac8;0x2ec93384de13764cd1c054cc8e1c468e;0x4989b4774c0b152c6804cd954f2f144f;0xb2484ed5111b576c073d23fb700dc970;0x77ed140f37ffbc7a333fa450b6fbc3b6;0x394ccbc6b1fb4d6a58a07eaac91265c9;0xad7a1ee9cd61e247cbc1f678ed6743ed;0x2099e53b890d7d34d7357a12ee53e1ee;0xcf4fd85ac9b3a789f1b937e6cb8b18cb;0x64d2b872e05ec0bb791110a59cc7559c;0x9ba916ef0507c51cd5666058ced73dce;0xde2d5ed942d719da3bb0ccbb36ae3536;0x7f5abc71846d327776a35bb56c9f6a6c;0xa80f5fa95babc4e9487daebf0ab84a0a;0xb6f21aeaa952108bc473bd681d3f7c1d;0x5c5166cb7f26ec986143a85bdf388cdf;0xa5cdb6977ef36c4a8e5d099d3703ea37;0x6b4d7bb299c3aa8a3f16f82f76654e76;0xd3efb7e7678fb179fd906b990b15950b;0xf0e46d5d9cc46f96ea709877b8b273b8;0x5d9e73b451a58dd121b16e0f55d53055;0xc867b3e403bc43b5f2222089fb4daafb;0xc5a55ada26e4eb16340287abc6f60ac6;0xbdd78d1568863d5d413acb719aafd29a;0xc342241bc2686e63776b56907cdd047c;0xe4f3aa9e816af76ba3c53beda24857a2;0xaf27341791a420d54be6b9d03a7ef83a;0xb8a2cc55fe4c1bf3c28693b67d70db7d;0xcbf58c6571fae06e32f7a975a6b9ada6;0xc11f0ee59eadacf1f74c1938abc4bfab;0xb560256bdb14b35004a6349440cb7b40;0x6ff72f8d218aed6dfc5866bc1b57fb1b;0x4cfcf537dac13382ebb89552a8f01da8;0x97a4eaae0edc0cf653b4012e79812179;0x8896ba92d2a6b9dd9f48d4ade4ebabe4;0x61a7f9327694e615faad48627b185c7b;0x5774f134bef2c14ee40ade4258a82258;0x116286838b64be53ca09fb5dfd252dfd;0x99f43c1159c2078e55412ff019ce8619;0x7298554fa1359ad4b083fc975124ca51;0x83b32d6d1372940b1a01a2b4637b0563;0xbf8aa7eb3443ffcfc11d84d94db6694d;0x5529dbcae23703dc642d91ea8fb1998f;0x735740308fb6fb9df0713ac3dbc976db;0x9d4e682ee18b4069960fb16374fc3374;0x81ee07934fb756999a26ed1cb462beb4;0x3fabb5075577c81f1bc9af9173396b73;0xb3875baa3f98362547cfe5affae075fa;0xbb30f3d48c0ab82802531a4a2084dc20;0xd69af6a7f14597d77e2c335eecca9cec;0xeaa37c21d674fc13a5301533c207f0c2;0x25eca47b1fc75b9a548922d5098ce809;0xce80cd25e730c6c0b14bf1b24166a441;0x63fad3cc2a5124877a8a07caac01e7ac;0x4584483647d0dcc6eed6ace3f87908f8;0x32695c39702f60bcdde908b34e82cb4e;0xd755e3d8dfc6f69e3edef50a66272066;0x9edc57af93cde3b256da389f29083429;0x08b7a87eb3928e0d459cffe5da64a9da;0x8de3fbd2446c9f731cf48c6a0334a203;0x79bdc2b060e1b70235ca8a8ed6b464d6;0xab9d602829ed673288a82743574c4d57;0x36d30806c866275b1ea7962023b07e23;0xfbc1faa25d1042406f39ee6e3f22dd3f;0xec4402e032f87966e659c408782cfe78;0x4ea1dfc98604f1106b9fdafa7fe9a67f;0x7e95a90eaaee533e36519de1e672d6e6;0xd07d886615c912a23d45e26556e19256;0x6c65100c53cc4eb63c8def4046a3fc46;0xf37652dcee82cc4d2aa5118be54674e5;0x5fc3594a0d604f43a19621a782cc8b82;0xff7bae9de55905a7ac7770fd52106852;0x8acb906c8e637b4f1f6f9b0533f21033;0x56bbe44b9071a007a4f81816d2459ed2;0xddbf61583091ba01fb6545476b5a326b;0xb4af3014f597d2194454f2c0ca26c7ca;0x04ba543fb84947e7c34e9e936d32b56d;0xbe45b2941ac09e8681ef428dc75bd5c7;0x1b8804036433f2cc0fb24b10f0583ff0;0x9c817d51cf082120d6fd7737fe118ffe;0x5e0c4c3523e32e0ae164e7f308213708;0x07286bbeca0fe43c039b176f30c6b230;0x8c2ceead6aeffe3a5c064a3e89d91e89;0x0f9fc3c0799d6a314607e88aeaa21bea;0x6daa05737d4f2fff7c7f2914cc4e40cc;0xf45e3962248d2871293e06e4d580c6d5;0x267e9bfa6d81f841945cab295478ef54;0x710a6aced373390f7056756b0cd0cd0c;0x1ca06fbdae3c16f00c295c7fc09e8dc0;0x9436d52f7c9aaf2d936188d224752624;0x22c4cfc5d5c8bfa6571235ba394a5a39;0xeb6c695ef8f79d5ae5c2d36748ea4c48;0xbc18986a46055c1401c80d2510426e10;0x3c398a8627316bc4db1c266d2ecd6c2e;0x15d8d2bc332df9b4094765ce90179890;0xe93143a0a4325fc865e59ccf9ff3f79f;0x025d2afe5cc5c29280274fa8d719bbd7;0x461677b735967f1d2e03251fa58d0fa5;0xda970ae6fa9e5e3df8fe52285b9c805b;0x19d52efd38f6305e8f9504b827418427;0xdb581f99d41d3f74b80c947cd1713cd1;0x1efd4543f2f9d4628c0e13d717873617;0x1785f8426fe83b2689602a66470e2347;0x4a1b8bf63e4db6f7a8d1446912db1312;0x0aea8280ef574c9fc5bbb04d0d7d120d;0xd905356788d8fde6382bdbd406688706;0x8959afedfc25d894dfba12f96e06176e;0x7872d7cf4e62d64b75384cda5c59d85c;0x76220170197cdd3373cd62043c167f3c;0x27b18e8543029908d4ae6d7dde9553de;0x181a3b8216755117cf67c2ecadac38ad;0x230bdabafb4bdeef17e0f3eeb3a7e6b3;0xf2b947a3c001ad046a57d7df6fabc86f;0x95f9c0505219ce64d3934e86ae989aae;0xd508c9268303340cbef9baa2b13e9bb1;0xa9c04ad67528a5a0088f68eb8055f680;0x849b46d3d97d7037199ab5db53bdb753;0xe186ebde17a0d1c52079632a45975e45;0x1d6f7ac280bf77b94cdb9a2b4a73314a;0x931ebe91b6954b1190fa9fbd14b39414;0x282e4d453a9ff33992a985f734374834;0xc637655b54a248cdf4d70e579b020d9b;0x7be0e84e3c247590b5edc52601addf01;0x651dad0dcedda1f239e3d6f1162ae916;0x75b03ef16b3a7ee8b318ebf861e27861;0x7cc883f0f62b91acb676d249316b6d31;0xe3dbc1204b651357a05e2c82928ee592;0xee19281e6e3dbbf4667e8ba0af3545af;0x2156f044a78e1c7d97c7bc4664be5d64;0x8e71c453362a3ca8dc2105965ec0a55e;0xf99cd05c01d580d2ef1ea1c6e83b66e8;0x01cf157f2e83614940f2c6548aedbc8a;0x5b790d75b52908a462d8bf34effe3eef;0x9143946fea50898310ddd015c3aa2fc3;0x1417c7c31dae98fd49b5a39a1afa241a;0x7a2ffd3112a714d9f51f03728b40638b;0xf603139c7848eae3a919494c02997d02;0xb1da7154635df4b7c7e8aa072df9ce2d;0xb73d0f9587d171c284817b3c97d2c097;0xca3a991a5f79812772056f212c54112c;0x5ab6180a9baa69ed222a796065138265;0xf853c5232f56e19bafec679262d6da62;0xccdde7dbbbf50452316cbe1a967f1f96;0x47d962c81b151e546ef1e34b2f60b32f;0x966bffd1205f6dbf1346c77af36c9df3;0x6e383af20f098c24bcaaa0e891ba4791;0x133fac7dd7a17cc14a2eb4f52a3c962a;0x2423b10431443ad3147be48183615483;0x747f2b8e45b91fa1f3ea2daceb0fc4eb;0x0978bd019d11ef44056e39b150891550;0x03923f817246a3dbc0d589fc5df4075d;0x303476c72ceaa22e5dce471b999b7099;0x505c9a8a74fd2572e791c92d686e9068;0x4f6ecab6a88790592b6d1caef5041af5;0x0e50d6bf571e0b7806f52ede604fa760;0x7d07968fd8a8f0e5f684141dbb86d1bb;0xb96dd92ad0cf7aba827455e2f79d67f7;0x371c1d79e6e546125e555074a95dc2a9;0x54e6ceb5ccb4629524df57be055c2505;0x1f32503cdc7ab52bccfcd5839d6a8a9d;0xc28d3164eceb0f2a379990c4f630b8f6;0x33a649465eac01f59d1bcee7c46f77c4;0x3adef447c3bdeeb19875f75694e66294;0xe53cbfe1afe99622e337fdb928a5eb28;0xe8fe56df8ab13e8125175a9b151e4b15;0x12f0b902f9221d880adc72a1a0d12aa0;0x92d1abee98162a58d00859e99e5e289e;0xacb50b96e3e2830e8b33302c678aff67;0x348e22f894a3e5c99e80d988f4a9c5f4;0x5201b0742838e7e067b68685bf772bbf;0xed8b179f1c7b182fa6ab025cf2c142f2;0xfa0eefdd739323092fcb283ab5cf61b5;0x983b296e774166c715b3e9a493233a93;0xdfe24ba66c5478937b420aefbc4389bc;0x00000000000000000000000000000000;0x668f928cbc9b0229f9365f0d4bdeee4b;0x2f0626fbf09017059132929804f1fa04;0x3e64a0787bf4a9565b3b69c5f9d4d7f9];
   [0x518bc04841db9d79045bb3426ee518c6;0x33ea2527fa8130e7a306f712658f4c36;0xa4985a404842b3c93b2e19ca9c049a9d;0x67eb11d71497c2596c89a6396b80ab4b;0x0ad72bb39d59de4d556b07d2c0173db5;0xe733d57d3a1c1b11a63b18a1f1c25220;0x28daac8931a7fef7976f1cce865cf491;0x1accd237e8706c44ddec60c1428e8b80;0x6cc061fdaa98be40d0672af60acaa5d9;0x65d0a726523b45f17d407303ea3acd05;0xfa4e45033b0d9f3aa1ca4f33521c4055;0xe86e0a760888aa9b3884fd1a513f902e;0xac74c70293b7ea2c7f8ccb22dda9c166;0x5aa0b062ffd4e160b8b53f8d0faf1654;0xa9fe33ba3c7a85ebb458294bbd433edd;0x302dc84f9f7b151b5b4aa9354568195f;0x8bf3b4809084a551765c3257fb08f7f9;0x831f29c24b71fcb432fee0bfbaa5ac02;0xefdf483fe1e942f4e299ca49b06f09db;0x66174a4e37c1600d850c2d24cadd986c;0x146d56a5f9b27f9aaad60e67432e7aa9;0x0d6669fa743836228f7630812147a440;0x058af4b8afcd6fc7cbd4e26960eaffbb;0x92f88bdf1d0eece953fc0cb199612910;0x7a9681a9158646726b78f1abc85eb93e;0x13dc14ec10d397f570cb3934a27ee35c;0xd843c23997f3bf8063ce542f14578971;0x876986e3c7ea312710af89cb7b12609e;0xb57ff85d1e3da3945a2cf5c4bfc01f8f;0xdff280707e9257efb9d3637cf5071084;0x913f66b778f4c915abb05296b9867c79;0x2d5058319e6a91305cbbfea7e6b60b2a;0xa0eef561c4d97e5a197f70be5db35601;0xbfa8d3ee83647dd90f47f2167fd7223a;0x24409eea66c96a81f19ca752064663f6;0x497ca48eef077695c87e06b9add1f508;0xee2313a6c2bfe0a00b1c415411323afc;0x2cac03a8bd3c3364b53e75ba47eb380d;0x1d7d907e0111842b07f15792a3de1275;0xcc2e949c6e41c01ac9185a485779f3d8;0x7cdb9879dfb10c4958e04de5885313ec;0x8e7940383f49ca96bd88d03e9be20842;0xb81991a76a0595b6d55ac5459e87bbcf;0xe6cf8ee4194ab9454fbe93bc509f6107;0xf4efc1912acf8ce4d6f0219553bcb17c;0x267b281b2065ed29e055726887fc05b8;0x1b3089aecb26ce103469ebdce3d3b8a7;0x4f31bd5e25303caefbe6baf7eddc5fda;0xd525abc3e3cb89a2ecb864ae35102d31;0xc53e524796e23bab643f03bdb7899b04;0x50779bd1628d3f2dedde385fcfb82be1;0x79516cc1707c638e9334af8ce8b9ec57;0x77f0e85361be7050e40ec12ae9191d7e;0x1656e054bf1ef832bb1fdb5dc2941ce7;0x524c2d202421b885fc17ed654e024daf;0x15910d3cdae4ddce4353857ae273498e;0x9be84d04e5ad1758fedb5544799141cc;0xb483a3c43d6b01c0b3a97ed91e9d2ca8;0x3e8c4cdd8eb906c52c70c79344c8e876;0x80d8c4aa2e8bd948cab2be989a42f96b;0x3660d19f554c5f2068d2157b0565b38d;0xd368b21329fcc399df20d8e0751d87e3;0x2b1d41e1545ddb0b6f2342e9a6bba1f8;0x01fc5b992356a254e9858b1da15d3327;0x99d3fbf5a30190f0ef12807ef82b2782;0xddc93681383ed047a81ab64674bd76ca;0xf6d477606c630b4cc739f4afd206d732;0x68b6cedc260373d3f2364382cb7d6945;0x12204f75338535a1994eb2290323d07b;0x8a0fef19b3d207059fd9b94a5a55c4de;0x0910c6dbf8a3fbb1ad2759f5e0f068dc;0xa6a3ecb10eee34612ae7ccf01dbefcd3;0x727a1cebce731f972fda234389f3e2c5;0xc4c209deb5b499ff8dba88a016d4a823;0x3afae3fc0222cb560e21aee7857f24ea;0x7437053b044455ac1c429f0dc9fe4817;0xc148fd661a79f638466e6ac9763e5798;0xca638d4ca4768a21fa80e6061774590a;0xb9e5ca3e495337e23cdf4e583fda88e8;0x7041aa1a88df983f3e13f6790849848b;0xbc6f3e86e69e5825f70bac315f307753;0x345b676e13e0d888791bc04184dfd5c3;0x6a8d782d60aff47be3ff96b84ac70f0b;0x4880ff17cc51d4c121fb8da40c8cc62f;0x5f2a44da50198ea77361dde46f45e9ef;0x8f851ba11c1f68c2540d5b233abf3b65;0x694a95450555d1871bb3c89f6a205a62;0x9a14169dc6fbb50c175ede59d8cc72eb;0xda7874c8d15f38287207811595edef3f;0xfdff074ad26c77557bd77860b34cd9a0;0x393d0e9467d8eeaaf66df0c0a5987183;0xa56401d96b14119dd2ab92d73d59a9ba;0xfc035cd3f13ad5019252f37d1211ea87;0xe0829734d37df37e7c262ff21092cbd5;0x0c9a3263576e947666f3bb9c801a9767;0x57c6d9988becd74237c30f0c2ee8b214;0x540134f0ee16f2becf8f512b0e0fe77d;0x8dbead505ab3ef6a45c48e19bb055d2b;0xd294e98a0aaa61cd36a553fdd440b4c4;0xf7282cf94f35a9182ebc7fb2735be415;0x5ed61f43734f2cf39ae456f9ce18dac8;0xf989a86b5ef7bac65986111472fb153c;0xf2a2d841e0f8c6dfe5689ddb13b11bae;0xe3457a5cb687d682846a71d530759ebc;0x3b06b86521746902e7a425fa242217cd;0x03c7ed6865fa25fcf84c5e2720e75569;0xa112aef8e78fdc0ef0fafba3fcee6526;0x968e24fe9195217a71ad65c558d6e58c;0xaa39ded25980a0174c14776c9da46bb4;0x9f9ee2256936dacbdc8a3c30b8268d50;0x46217b85dd93c71f56c1e3020d2c3706;0x419039cc34f22f708cdcd451ec7caef3;0x2ae11a78770b795f86a6c9f407e692df;0x605a539efdf62a36b694916a8ad032be;0xe508638c7cb09cb9b7f2cd9b7078346e;0x94b5920fd739a6d26064b0ffd96c83c2;0xbe548877a032df8de6c2790bde8a111d;0x90c33d2e5ba26b414235d98b18db4f5e;0x2f6beec0d8c616984d722b9d670c6d64;0x9da554d42f9a5d63cd43e90a399ceb1e;0x81249f330ddd7b1c233735853b1fca4c;0xa2d543908275f9f208b6a584dc09304f;0x760cb3ca42e8d2040d8b4a3748442e59;0x4b47127fa9abf13dd9b7d3832c6b9346;0xe4f438155fe63eed5e774686d1250749;0x064d19d0ca374a3b3398bc4e400daad2;0x55fd6f69cd4050ea260ada36af52d45a;0xae4f71f3d51b6d846e451e185c13a728;0x1c81cbe72247267fee74dc8f02832152;0x75cb5ea22712f7f8f5c7141068a37b30;0x5b5cebfbdc8243345130b490aef22573;0x0476af218c9bcd9322516974c1b7cc9c;0x2787738203334f7d09d0f97526a1369f;0x4d0a0baf639cbb06ea2f6fcd6c663994;0x9c590f4d0cccff3724c6621798c1d839;0x203631cbea52a712d3cdce26c7f1af6a;0x53b076b907771ad115926678ef5f7e88;0xd0af5f7b4c06e665276c86c755fad28a;0x9549c996f46f048689e13be27831b0e5;0xf35e83d8c3ae648b0ced16c6b2ec2889;0x855230128146b68f01665cf1faa806d0;0x883459e8f57e80ad8e106c70dbefa290;0xb0f50ce5b1f0cc5391f817addf2ae034;0x220d873aacfe20bac2041b1c464bc924;0x0b2b702abe0f7c19bcee8ccf614a0e92;0x023bb6f146ac87a811c9d53a81ba664e;0xc9a46024c18cafdd02ccb82137930c63;0xdb842f51f2099a7c9b820a0834b0dc18;0xb6b815357bc78668a260abe39f274ae6;0x406c625517a48d2465595f4c4d219dd4;0x4ecde6c706669efa126331ea4c816cfd;0xd71e1d32a5670e0afd71b194b4aa4b7f;0xabc5854b7ad60243a591fc713cf95893;0x982fa06c805732a406970b63597614a5;0xc8583bbde2da0d89eb49333c96ce3f44;0xafb32a6af64dcfd087c09505fd4e940f;0xa3291809a1235ba6e1332e997d540368;0x441acd749b3f40b7470836388c965148;0x84ae6b8ba21014dbe8e3d7ec5bf535f7;0x9e62b9bc4a60789f350fb72d197bbe77;0xe2b921c595d174d66deffac89128ad9b;0xcdd2cf054d17624e209dd155f624c0ff;0xfbb21e9a185b3d6e484fc42ef3417372;0x45e696edb869e2e3ae8dbd252dcb626f;0x23f1dca38fa882ee2b819001e716fa03;0xc6f9bf2ff3181e579c735d9a976ece6d;0x3d4ba1b5eb432339d43c99b4642fbd1f;0x17aabbcd9c485a66529a504063c92fc0;0xeba9e71e6d728f67c0c8a33d71d8c547;0x2e97b559fb90b4cca4f7a080c6515e43;0xcb9fd6d58720287513056d1bb6296a2d;0xb2ceba14f75c4bfb8031c2975e90867a;0x5ceda9b235e3ab5b8b2d83c34fa2bc86;0x4abb49e68afd53693032589e8d36a061;0x642cfcbf716de7a594c5f81e4b67fe22;0x71bdf183ab893a6bd7967d64a914b7ac;0x35a73cf730b67adc909e4b5c2582e6e4;0xc705e4b6d04ebc0375f6d6873633fd4a;0x07b14249e961e86fda1d3753e15099f5;0x59675d0a9a2ec49c40f961aa2f48433d;0x38c1550d448e4cfe1fe87bdd04c542a4;0xea55bc874e242d33294d2820d085f660;0x379c8a06761afd7481579e66a43880aa;0x639dbef6980c0fca4ed8cf4daa3767d7;0x18f764c6aedcebeccc25b5fbc334edce;0xa75fb7282db89635c36247edbce3cff4;0x589b0693b97866c8a97ceab78e15701a;0x11e7a21d567f105d6102ec0e23c48512;0xf5139a0809992eb03f75aa88f2e1825b;0xd9bf99a0b4a51dd48a4bdf32b50aba56;0xe99251ef2bde08cfd1017607f062a309;0x25bcc573459fc8d518192c4fa71b50d1;0xf875f3f27da11892b0039a09d3a6261b;0x97727f67b2c3832e9828eed8f98bd6ab;0xb109577c92a66e07787d9cb07e77d313;0x190b3f5f8d8a49b825a03ee66269dee9;0x0f5ddf0b3294b18a9ebfe5bba0fdc20e;0x89c80271d62822f96795e76d7ab291b7;0xdc356d181b687213419f3d5bd5e045ed;0x08ec9d42dbf559e544a2d2e841ad5bfb;0xf16535298502e3231d24c3fc33564ec7;0xa80268231f2c27bf5ddda2561c1e0dfa;0x0ea1849211c213de773a6ea601a0f129;0x6f078c95cf629bbc282b74d12a2df0b0;0x7d27c3e0fce7ae1db165c6f8290e20cb;0xd4d9f05ac09d2bf6053defb3944d1e16;0xbd93651fc5c8fa711e8e272cfe6d4474;0x8695dd7ae4bc9373f92a02d6da4f53b9;0xec18a557841367081ad5946e90885cb2;0x32167ebed9d792b34a837c0fc4d27f11;0x7ee02e88991d8be1492998df09e975a2;0xede4fecea745c55cf3501f7331d56f95;0x6efbd70cec3439e8c1aeffcc8b70c397;0xc3734b975cd5719057a7bff3f78431d6;0x21ca6a52c90405463a48453b66ac9c4d;0x6261e56fbb5aad9ea75d44500b6a54f0;0xce15226d28ed47b2d8d18f72d6c39596;0x9304d0463e584ebdba7987ac383c1a37;0x4cf6503640ca195203aae4d0cd3b0ab3;0xde0edbe95dc4f5bb5056e861545a23a3;0x3f701744adefa491c5f54c8ee595db51;0x43ab8f3d725ea8d89d15016b6dc6c8bd;0x73864772ed25bdc3c65fa85e28aed1e2;0xad889c9bb0e148789609403f7cf4f241;0xf0996eb0a6544177f4a148e1920b7de0;0x47dd201cfec5654bbf44681fac710421;0x3cb7fa2cc815816d3db912a9c5728e38;0x61a60807dea088625f111a772b8d0199;0x563a8201a8ba7516de4684118fb58133;0x2926f71012f15ca37eea97d32701c7b6;0x7b6ada3036d0e42682fd7ab669038a19;0x101bf9847529b209888767138299b635;0xffc4b1bb94c0f0fd6a1ead5a32f6bfee;0x5d11f22b16b5090f62a808deeeff8fa1;0x31d193d6bc2db74fb2cf2228e4352a78;0xb7444eac5891243c4be520fe3e7a79c1;0xb332e18dd40ae9af69b4498affcdb55d;0x6b7123b443f9562f0a7a1da5eb9a3c2c;0xc0b4a6ff392f546cafebe1d4d76364bf;0x7f1c7511ba4b29b5a0ac13c2a8b44685;0x1eba7d1664eba1d7ffbd09b58339471c;0xd15304e26f504431cee90ddaf4a7e1ad;0x78ad3758532ac1da7ab1249149e4df70;0xc28f100e7f83d3c4be2234ee56d902f1;0xbbde7ccf0fffb04a2d169b62be60eea6;0x6d3c3a6489ce1c1439e2a1ebab9796fe;0xe17eccadf02b512a95a3a4efb1cff8f2;0x1f46268f47bd0383163882a82264743b;0x82e3725b68275ee0db7b6ba21bf89f25;0xba2227562ca9121ec493107f1f3ddd81;0x8c42f6c979e54d3eac4105041a586e0c;0xcfe979f40bbbe5e63154046f779ea6b1;0x00000000000000000000000000000000;0xfe38ea22b79652a9839b264793ab8cc9;0x4257d4a451080a8c74908a76cc9bfb9a;0xd6e246ab8631ac5e14f43a8915f77858];
   [0xa59d85468a0e61c442e7b4cac03df4e8;0x2d307cb1b296ab86123fbc1025e61ef1;0x32b329f1e6b15361caf8a0d05ac49637;0x8fc26955f082f27d39b6e7ff113ae82f;0x0edee3875334707ed2dc1d4a2b01046c;0x301b4907fb7a4373a1912509d545d723;0x38fe0a598fd0033bcef674ebac041073;0xc06ce71c6a2bcf0fc1019424d2d7da8c;0x54be1b26f4dbe5b1f6a2a66a610e384d;0xe645887e5e583cda03e55f82a7508333;0x9e9fdf92f7917ae433ade67545196485;0x39aa3a2260540b321a23d7660aa5d179;0x55ea2b5d1b5fedb8227705e7c7aff947;0x7ee1f7358e5776088df3f55fb009248a;0x5285bbffd345d5874b19eac2334efb71;0x91150c6e4b21029335a458b2c8b9a1e3;0x64a552210fa1a6c257338363b44bef6e;0x03fc508df24f181bbfbc26542920801e;0x57424bab0694fdaa491e803e482eb853;0x5a60f8a1a7ef95cf247ebb204a0f3c21;0x1c7f05cda668e0fc677b3a94560208d8;0x6036920e35f486e681e14a12698a6d46;0x076f90a2c81a383f696eef25f4e10236;0x18ecc5e29c3dc0d8b1a9f3e58bc38af0;0x2146ffc0fc69cbeaab8a248381665b89;0x72977444c0a8166434466dcc148961f2;0xa8bf364c2b7509a12f878fd4c21c709a;0xd13151db6d384796cb1a95ae86f45626;0x29a3bc9e88c38ba2c4ed7561f8279cd9;0xc65747c54db5ff397cbad88c809719b0;0xa4c9b53d658a69cd96321747669c35e2;0x3f919afb47ca3b04a7989bce58e51245;0xe07e28a779c60cecbe5e132af510400f;0x277d5f19dbf7fbdc1631682bd32698b5;0x8d6a09a3ed49e26f52df62269ebba93b;0x0c7683714eff606cb9b59893a4804578;0x82e0da5f51f99a1854d6dce1131b6c5d;0xea330b0f10a75cb6ba50c71103d0c64b;0xae8496950ceb3997923cc37c905cb3a6;0xb4c033818d1de95d48fcb540941e7842;0x9a0c1fbdcdc45ac0e57f2f0498d8e6ad;0x63cac283c7bb9efd3e5d6c4640aaed58;0x49952e90bd370d44450c3f7391adf19f;0xe5b9d8f3ac1724c1bc5979d68e70032d;0x428c3d433bd2551795d748c5c1ccb6d1;0xe4ede88843932cc8688cda5b28d1c227;0x15ce76e83d46a8bddcc9c8fb89e20e82;0xb73c630c7f52f146f7409314bd3ef85c;0xc889a4421e818f47ae66c5c6ab961ddc;0x063ba0d9279e3036bdbb4ca85240c33c;0x703f14b2dd6306765f2fe8159b0820e6;0x9d638f1f05de62ff8c11c0216c39e49b;0x41706dcec99d4d0c2a6b6e91e8ec36cf;0x75f8e4e608b22e5b5d2882e9e06863c4;0x19b8f59973b9c8d1657c50682d624bfa;0xc9dd9439f105874e7ab3664b0d37dcd6;0xaa1756ba36be19b344ee0a0d4d9d318e;0xfc012d6adfaeec10d92529bea31248d7;0x4d06eebf87622d6093def6024c6c73b7;0xbfd920520bf8b10e9827c2f6c47f3f0c;0x2a5fec137a8c93b97b515335d1071cc7;0x73c3443f2f2c1e6de093ce41b228a0f8;0x84db7a867667aa2ee96d9049415baf61;0xd5a291f4576d67b21dc85cdf5b35d40e;0xc390b7919864d7147ebdb270fbf75a92;0xafd0a6eee36f319e46e960f136fd72ac;0x2b0bdc6895089bb0af84f0b877a6ddcd;0x86731a706bacba3c82041590cedaee75;0xa735e5b097c571d6298e31134fbcb5fc;0xb107c3d558ccc1704afbdfbcef7e3b60;0xb2fb9358aa83d96bf547f9e8c65ebb7e;0x5b34c8da486b9dc6f0ab18adecaefd2b;0x461ffd6c01877533430581b41c0d34f9;0xd399312d70f35784a073107709751732;0x9fcbefe9181572ede77845f8e3b8a58f;0xfd551d11302ae4190df08a3305b389dd;0xd4f6a18fb8e96fbbc91dff52fd941504;0x0f8ad3fcbcb078770609bec78da0c566;0x9c37bf64ea5a6af658c463acca982591;0x2f981c47af5dbb94795639c9aa675fe5;0x9b582fc6224052c931aa8c893e7927a7;0x43d80d38d4565d1e4102eb48676d77db;0xeff4fb5bc576749bb857aded78b08569;0xd9d41285199207dea47dc44cffb59176;0x798e6797464d4e37e49d1a7a44e826bc;0xb668537790d6f94f239530991b9f3956;0x53d18b843cc1dd8e9fcc494f95ef3a7b;0x7fb5c74e61d37e01592656d216a8e580;0xc138d76785afc70615d437a974761b86;0xf077ae1b91518c7c6090b12d07920daf;0x23ee9f36e1a2dbf8c0e3a15a0ee71a9d;0xe711b805b1dc34d3d730fc0f01f14239;0x25d53fefc63cebce7d58edf25ca7d9a1;0x5ef3388e9dbab5ebf2ac725197cebe09;0xb59403fa6299e1549c2916cd32bfb948;0x1ed7653bbba3f0ee0c12bf4dd98349cc;0xa2f215e4421459fb2b895bef34dcf6de;0xdfefb25c3e0c37e819c688e4adf5524a;0xa661d5cb784179dffd5b929ee91d74f6;0xfea94d9cc265fc02b24cac672c9309c3;0xac2cf66311202985f95546a51fddf2b2;0x22baaf4d0e26d3f1143602d7a846db97;0xf9c6dd3e0a7fc43ddb224342d8720bf5;0xe2d64851640d1cfed53796f37a91011b;0x4a697e1d4f78155ffab01927b88d7181;0xbc2570dff9b7a915279be4a2ed5fbf12;0x35dcb9532eab6b5ea3964ff5ae259401;0xca21c4b4034a9f55c50f401f24175cc8;0xeea0cb202af27c926c820e60de114463;0x78da57eca9c9463e3048b9f7e249e7b6;0x05c7f054d5d1282d02076afc7b604322;0x6b2f81ddb311deb5513a3da439eb2a08;0x5179eb72210acd9cf4a5cc961a6e7b6f;0xe12a18dc964204e56a8bb0a753b18105;0x599ca82c55a08dd49bc29d74632fbc3f;0xa3a6259fad9051f2ff5cf862927d37d4;0xf2dfceed8c9a9c6e0bf934f488134cbb;0x716b24c932e70e7f8bfa4b983da9e1ec;0x56167bd0e910f5a39dcb23b3ee8f7959;0x115db6c7071388990a1b018a54238caa;0x6a7bb1a65c95d6bc85ef9e299f4aeb02;0x89f9c98cd71cc24b840dab57437a2b13;0x94d2fc3a9ef02abe37a3324eb3d9e2c1;0x65f1625ae025aecb83e620ee12ea2e64;0x8c3e39d802cdea66860ac1ab381a6831;0xbb4ae07d31ad912a4ef50b8719bebd24;0x7750841015793e49364107306fe922d0;0x3c6dca76b585231f1824bd9a71c5925b;0x7b2607615b865e258ff49fa3cb6967a8;0x28f78ce5674783ab1038d6ec5e865dd3;0xab4366c1d93a11ba903ba980eb3cf084;0xd2cd01569f775f8d74a6b3faafd4d638;0x314f797c14fe4b7a7544868473e41629;0xdebb8227d1883fe1cd132b690b549340;0xc4ff2733507eef2b17d35d550f1658a4;0x5fa708f5723ebde22679d1dc316f7f03;0xcc1a646d24d4af6378b40cb776579ff4;0xcfe634e0d69bb778c7082ae35f771fea;0x7604b46bfafd3640e294a4bdc948e3da;0x2c644cca5d12a38fc6ea1f9d8347dffb;0xb8b6b0f0c3e28931f1492dd3309e3d3a;0xd88022fef6160fd770a867c15914507c;0x2ecc2c3c40d9b39dad839a440cc69eef;0x3620e9dedce473451c2a69a18705141f;0xdb7c7273045917cccf1441957034d062;0x6987e12baedacea73a53b87db66a6b1c;0xb3afa3234507d16221925a6560ff7a74;0x149a4693d2c2a0b4081c6b762f43cf88;0x9586cc41717422b7e37691c3157823cb;0xbe8d1029e47cb9074cf2617b62defe06;0x629ef2f8283f96f4ea88cfcbe60b2c52;0xa10e4569b05b41e094357dbb1dfc76c0;0x3b025ad47d9f1b20714a52bf8524906d;0x16322665cf09b0a66375eeafa0c28e9c;0x660d32d7126ab6d03c5a06ba3bcaae7a;0xe9cf5b82e2e844ad05ece1452af04655;0x5c5b58788071a5f999c5f788184fff1d;0x6c40117f7b0be68a3854d281cd0a283e;0x6d142104948fee83ec81710c6babe934;0xad78c618fea4218c2d80e528b97c33b8;0x3774d9a533607b4cc8ffca2c21a4d515;0x6162a275da708eef5534e99fcf2bac4c;0x4b3d4e66a0fc1d562e65baaa1e2cb08b;0xb9e2808b2c668138259c8e5e963ffc30;0xe382782a8b8914f701e2357edc30c011;0xba1ed006de2999239a20a80abf1f7c2e;0xf1239e607ed58475b44512a0a133cca5;0xa05a75125fdf49e940e0de36bb5db7ca;0x858f4afd99e3a2273db833c4e7fa6e6b;0x83b4ea24be7d921180037f6cb5baad57;0xda284208ebdd1fc51bc1e218d6951168;0x474bcd17ee037d3a97d02239baacf5f3;0xc5ab1748bffae722c306fed8a9b799ae;0xb053f3aeb748c9799e2e7c3149dffa6a;0x33e7198a09355b681e2d035dfc65573d;0xfa3a8db3f830dc26649e6516f1528beb;0x967a9ccc833b3aac5ccab7973c58a3d5;0x6fbc41f28944fe9187e8f4d5e42aa820;0x6ee8718966c0f698533d5758428b692a;0xc2c487ea77e0df1daa6811fd5d569b98;0xf64c0ec2b6cfbc4add2bfd8555d2ce93;0x502ddb09ce8ec59520706f1bbccfba65;0xfffd7de72de1f40b66990fea8a32c8c9;0x5d0f68036ff5adf04d105405beee3e17;0xa9eb0637c4f101a8fb522c5964bdb190;0x8e96592e1f06fa74ed634472b79b2925;0x1766161e208db8afb7a04d2206634f96;0x1b10956f6e72d8c30e15d5b1a2e30aee;0x972eacb76cbf32a5881f141a9af962df;0x7d1da7b87c186e13324fd30b9929a494;0xec08abd637396c8007eb8bb951900577;0x58c89857ba2485dd4f173ef9c58e7d35;0xf7183eb9594bb44309fe5e08f3730f99;0x1f8355405427f8e7d8c71cc07f2288c6;0xfb6ebdc817b4d42fb04bc69b57f34ae1;0x7c4997c3939c661ae69a70863f88659e;0x09b173259b2e4841bbb2f26fdfe0065a;0x0d22b30aa17b68656d603b1e02218472;0x7a72371ab402562c5b213c2e6dc8a6a2;0x675902acfdeebed9e88fa5379d6b6f70;0x45e3ade1f3c86d28fcb9a7e0352db4e7;0x87272a0b8428b23556d1b61d687b2f7f;0xdc13e2d1cc432ff3a67aaeb084d5d254;0xe89b6bf90d6c4ca4d13942c88c51875f;0x4fae8e499aa93d72f8b773dbc3ed32a3;0x1d2b35b649ece8f5b3ae9919f0a3c9d2;0x4efabe32752d357b2c62d056654cf3a9;0x0493c02f3a552024d6d2c971ddc18228;0xeb673b74ff2354bf6e85649ca5710741;0xf892ed45e5fbcc340ff7e0cf7ed3caff;0xf38bfe96631e9467df2c97792eb28db1;0x3ec5aa80a84e330d734d3843fe44d34f;0x3d39fa0d5a012b16ccf11e17d7645351;0xbd7140a41633a11cf34e472f4bfe7e18;0x8a0599012553da503bb18d036a5aab0d;0x88adf9f73898ca4250d808dae5dbea19;0xdd47d2aa23c727fa72af0d3d2274135e;0xcd4e5416cb50a76aac61af3ad0f65efe;0x0b1913d386e55853d0db77b65061474e;0x13f5d6311ad8988b61728453dba2cdbe;0x98a47f4bd00f4ad28e16aadd1759a7b9;0x02a860f61dcb10126b6985d98f814114;0x93bd6c9856ea12815ecddd6b4738e0f7;0x8048baa94c328a0a3fbf59389c9a2d49;0x90413c15a4a50a9ae171fb3f6e1860e9;0xd06561a082bc4f9f1fcf36232055972c;0x24810f9429b8e3c7a98d4e7ffa0618ab;0x34888928c12f63577743ec780884550b;0xcb75f4cfecce975c11dae39282b69dc2;0xed5c9badd8bd6489d33e2834f731c47d;0xf4e46e34ab04ac58b642785cda538f87;0xceb2049b391fbf7113dd896ef9d6dee0;0x99f04f303f8b42db5ac30950b1f866b3;0x100986bce8978090decea207f2824da0;0x44b79d9a1c4c6521286c046d938c75ed;0x40245db526194505febecd1c4e4df7c5;0x92e95ce3b96e1a888a187ee6e19921fd;0x3a566aaf921b1329a59ff13223855167;0x0154307bef840809d4d5a38da6a1c10a;0x26296f623473f3d5c2e4cba6758759bf;0x12a1e64af55c9082b5a727de7d030cb4;0x1a44a51481f6d0cadac0763c0442cbe4;0x48c11eeb52b3054d91d99cfe370c3095;0x68d3d150415ec6aeee861bf010cbaa16;0xf5b05e4f4480a4516297dbd17cf24e8d;0x811c8ad2a3b68203eb6afab53a3bec43;0x8b51a97acad7d259ef642e8eccfb6a07;0xc70377bea231f730a86f7b012636d8ba;0xd65ec179a5227fa9a2747a8b72155410;0x2012cfbb13edc3e37f5f870e27c79a83;0x0a4d23a86961505a040ed43bf6c08644;0x08e5435e74aa40486f6751e27941c750;0x00000000000000000000000000000000;0x4c52dec468e62569470b558feacdb2bd;0xd70af1024aa677a076a1d906d4b4951a;0x74acd49de736265289fd216446c9a2ce];
   [0x99aa1604c2958c4a63ebf049210aadf8;0x93e3daa395b5a1971b19bd7f0935a838;0x88fd2b3ba6c521bcafb5ad3e658a44db;0xae16296c271aaae1c40284ccfdee575c;0x8bbe0955e074cd78bb2351376961a4fb;0xbd8228a686940e2e10b871b5b1dcbffe;0x69bd24970613b223a98c87dc6747d56a;0xb14da0dd5d1538b840a5079181f6b97e;0x6ebb7ed009dd4c958d11e8c97b0b378b;0x3830957d78bffcf9e362fea8e0251c04;0x3eb6d1a1f41ee7b2cb8dc5baf8301f44;0x9263c43816da446a176be9780d6c4999;0x95659e7f1914badc33f6866d1120ab78;0x590741b8ec526a3e2af89c4ca7efcd2f;0x313a7bb4692e3de08f064f97c4f1f9e4;0x4ed6385b04a3dc83ce49fa29fb7a274c;0xd33956768f4942bb9da9997ccad78875;0xcea1e3323098d9db01eab22fbe7d67d6;0xa01a9de23945954e8cfb5ae6c576505d;0xe5057785e9a981ed3632b9fe126a9370;0xd5bf12aa03e859f0b546a26ed2c28b35;0xb9c7508fcfeb1c5c20b3e2a9a17bbd3f;0xa45fe5cb703a873cbcf0c9fad5d1529c;0xbf411453434a0717085cd9bbb96ebe7f;0x2d22d06b5590437d1f3730c3b402f7e6;0xe7c64b702c7788d42ed611f01ad892f1;0xdcb5fc63127998e9d9221351f6166ed5;0x21ed58108e1175eb4f2a46e78428f166;0xf91ddc5ad517ff70a603c6aa62999d72;0xeecca5b93de649cd42b2a0cf3e0c7711;0x6274f6abd25c7a03dd0c9eed4b21310b;0xcde2c15c7629351f157c4e26b29687f6;0x67b19019184c8d8ce17559f65fdfd26b;0x72a3d50f356332081d20979d0bf83989;0x9b692af1074b85737b0f584729b8ac79;0xbec10ac8c025e2ea042e8dbcbd375fde;0xeb09c30bf7f6be427ecb67d42af29471;0x86f19fb5b89a1e13e74c73145d1243da;0x8334f907728ae99cdb35b40f49eca0ba;0x090aeec91191c1196c64b13f24d4e5e0;0x5448d758b4bcb9557697be6f939c2a0e;0x7766b3bdff73c587215950861f06dae9;0x40da8cd51afce32c86b02403c3e2204d;0xf691764f48272522e2884c875e587bd2;0x5a4463d6aae386fa3e6e6045ab042d0f;0x0d4f96e058eed36b5c6f22233473e721;0xfa5efe3493a613b4b2953aa36e727d52;0xc7ab0dfb210918c26d8e03109aa98236;0x6572acecdd9284b5f991f1f8576dd3ea;0x5f81056460f371750217a75ebfface6f;0xd2b948ed0c26a74691dbcd7bce8e69d4;0xf0173293c4863e69ca677795464d7892;0x94e580e49a7b5f213f84d26a15794ad9;0x4399aebb5c4d0fe89226d80acf09c06d;0x449ff4fc5383f15eb6bbb71fd345228c;0x9eac4c43cd5b72fc47769f5c3d464f19;0xe9cafffe3228b77b662fcfda224095f0;0xb20e82b31ba4d47c5433fb988d1d595e;0x2a248a2c5a5ebdcb3baa5fd6a84e1507;0x139401caa18ea4cfd4baf5794c32e8a2;0x37bc3f68e58f26aba7e97485dce4faa4;0x1c18abdf3cbe7e9d90317f5470f30e02;0xb488c66f9705cf377cdcc08a95085a1e;0x4b135ee9ceb32b0cf2303d32ef84c42c;0x7fec43ef6d8de163414fb5be3f8bdea8;0x78ea19a862431fd565d2daab23c73c49;0xcc62dfc7f546d0e2190e1a21b6cf6657;0x81f7c5f2b754e0a5c3d11c01415ea13b;0xacd51599e2c4a3d8dce62cc2f55c56dd;0x982a089f41fa69b76f99a44e25534c59;0x568bebad7162b06c6e7316619b2e2b8f;0x1edb972af96077a488d5d75a78410f83;0x30ba652fea41d81d83741b90c0a81845;0x14925b8dae405a79f0279a6c507e0a43;0xc568310ee4d711fb756aab1e921b83b7;0x49d0621c0b6d2235ead4953ce736c5ad;0xb0cdbe46de7add454cd7539685af58df;0x7060e9faf0bd3b3105c43f93034a3808;0x0bc9d23cd44fc820748019312c66e461;0xa69cd93eb5e48e05a41461f4dd63531d;0xaf9637f7a4754f1cc870d0cbf9b7b6fd;0xa19a8379ba2a70b380890ee1c12fb1fc;0x17d179e3e8f1b6bde4b166655c95ea63;0xf5d254210e96c9e6f61eb08e52b39bf2;0xfd58a4739c68ed02960855b6723e9fb3;0x3c75ed5431c0ee8bd3696db4f0821ec5;0xcae49b1b79e7cba931e12133aeda6517;0xa2d9a117fc9b9c77941ff2e8cdc451dc;0x4a9340724ddccef1fe426935ebdd258d;0x0ccf887bdb813696501d7624302a0680;0x185dd3f675c16cefa03aec4860540cc3;0xc3ee75d268760ab05d85900c8a0e80f7;0x47dcd69215321d9aa22d4b16dfaec2ac;0x8ffb717ca90bdf0a8b28c22b79c6a63a;0xf2d40e6601583750d283df9b4eff7913;0xe0c0113723b976620a4b7ee506947010;0x3df5f3cfb2af0b76df1b39b3f4dbff64;0xaa5351456e65b893f40917d0ed49559d;0x570bf536f20d5591620142669f77ca2e;0x8771812e3bf5fbeeeb3e2713594ba27b;0xb64bfa9a52dbc60e643868849dba5b9f;0xe383335965089aa61edd82ec0a7f9030;0x232e64e54bcf7cd257ceeee98c9af0e7;0x52ce9384381da21e5e78857d8b89294e;0x8e7b6fe72a643af7875a962c7d9f479b;0xdd35e2f891167d14d5504756f24f8f74;0x2ca2cef0d6ffa680134564c4b05b1647;0x500daf71fdc3ab27469c2d73833b28cf;0xec0f994cf83840f45a5608c136be7690;0x068644dc8ca11b4b28ef3b1218150340;0x9120e656506ba8ae03fd15710187a9b9;0xa359bf8c7ff4798a986da6efc99db07d;0xff9b988659b6e43b8eecfdb87a8c9e32;0x9c6f70b608857bc55f92375235f44e98;0x2ba494b7d931583637d80bd1ac17f4a6;0xc62b1360a266fd3f61fc57179ef06397;0x39b08be6fbd01904ef10aaafe47cfda5;0x2967a8421cef510f2f3ca3dfa4a5f527;0x5bc47d4d298c6307321c3442af5dccae;0x90a0f8cdd3044d530f8f417605de4818;0x58875f236f3d8fc3268ac84ba3b62c8e;0xf1972c0847e9db94c615239242149933;0xdff6de0d54c8742dcdb4ef58fafd8ef5;0x28e7b6d99f80b4f2234ef7d8a0fc1486;0x60b7ca5e1782733ac5e836e34393308a;0x796a0733e12cfa2869a08eac279edde8;0x76e6ad267c1c207a2d2b04811b5f3b48;0x0343226e46b1ecc41496fc090cebe020;0xc827a7eebc39c2902905893da6686496;0x02c33cf5c5de093918e4a80e08b20181;0x12141f5122e14132d8c8a17e486b0903;0xef4cbb22be89ac304ec0f4c83a5596b0;0x465cc809965df867ae5f1f11dbf7230d;0x518db1ea7eac4eda4aee79748762c96e;0xdbb3a6241db7665ffdbf7c44ea5a8c34;0x742591d3b9c2294335cfac8f13ed3ac9;0x0f8caa159d30da52448b8a2d3cc1e6a0;0xc12d4927ada803894561380282bc8176;0x8d384d896cd5d63393cc6a257174a7bb;0x683d3a0c857c57dea5fed3db631e34cb;0xb7cbe401d1b423f3684a3c8399e3ba3e;0x0e0cb48e1e5f3faf48f9de2a38980701;0x5d423991a52d784c1af30f50b748cfee;0xe2032dc2e6677f5b12afd6eb0e267191;0xc0ad57bc2ec7e67449136c0586e560d7;0x9626bc115fa5561827607a641dcb4b58;0xad550b0261ab4625d09478c5f105b77c;0x01801e9b836fe5fd0c7254070459e1a1;0x24283ea244018264735381fc90d61206;0xe84ae165b14752866a5d9bdd26197451;0x8cb85312efba33ce9fbe3e22752d461a;0xf35410fd8237d2addef18b9c4aa698b2;0xa71cc7a5368b6bf8a86635f3d93ab2bc;0x34ff1d06a33eca6fb37f888cd00f1a84;0xe64655ebaf186d2922a445f71e817350;0x48507c878802c7c8e6a6c13be36f240c;0xba8472e1895af09834251ea0ad905d1f;0x07065a470fcefeb6249d6f151c4ce2e1;0xfcd8bae81f0708ff9a7a01b176677e12;0x4d951a3542123047dadf0620f791c76c;0x19ddcd6df6ae8912ac48b84f640ded62;0x4219b020df22ea159e548c0dcb5021cc;0x75a58f483aadccbe39bdf88817b4db68;0x4c1504aec17dd5bad6ad5227f3c826cd;0xa910732b28d45457e09febd9e1a2b5bd;0x82b4e79cf1e50c61d747e0084db5411b;0xf71168d4cb48c0dfeefa18805a019a73;0x088af05292fe24e46016e538208d0441;0x4f5626c087cc397ec23bae2eff23c6ed;0x10d723a4e73f480bc02c097040d90882;0x3b73b7133e0e103df7f402a1eccefc24;0xcb648580fa882e543d937534aa8384b6;0x206d468b0d7e9016435812e0807110c7;0x63f4e83051339ffed17ecaea4f78d0aa;0x7323cb94b60cd7f51152c39a0fa1d828;0xed8f87d77b57a50956245cc632e79731;0xea89dd9074995bbf72b933d32eab75d0;0xc9a7b9753f56276d2577dd3aa2318537;0x327959da2f9fd1249b90b39ec81a19c4;0x8432a3407d44172affa8db1a55a0425b;0x534e8d1fbb7247e3520ad17a8fd0c8ef;0x04457829497f1272300b931c10a702c1;0x7caf61812b3c0da755d949b733603e88;0x415a924e999306d18ac27004c7bbc1ec;0x276b1ccc02b06ea067c57df59c3df226;0x55c8c9c337d35ca87ae5ea6897c5cbaf;0xcf21fda9b3f73c260d98e628ba248677;0x71e0f76173d2decc09b66b940713d9a9;0x11573d3f6450adf6cc5e5d774480e923;0x97a6a28adccab3e52b122e631992aaf9;0xd9709ad1d8696f66e55bd44ae2e88db5;0xd07a7418c9f8ae7f893f6575c63c6855;0xa8906db0abbbb1aaecedbfdee5fb541c;0x1b1ef1983370802bb4ac10416cbfece3;0x165167786b9e5340e8c3326258cc0bc2;0x6c784225cc0345ac95f540c773b9360a;0x2fe1ec9e904e4a4407d398cdbcb0f667;0x451fea67d0ec14a3bac9e318d71cc32d;0x33f94741acf034d997e2e799cc43f865;0x1d98b544bfd19b609c432b5374aaefa3;0xfe1b861ddad901c6829ea9bf7ed57f93;0x7a29255da79d16ec7d3672a52b753dc8;0x64f2b2775efd6148f5e3a5ff5334324b;0xb38e9c2898cb31815841af9f8944b8ff;0x1f5b89b17a0f925984a7835d7c18ee22;0x2e61f2051321afb90ba1cccab8e917c6;0xe485691e6ac664103a40edf9163372d1;0x6afe06f940a25ee7bd1a7bd56bac354a;0x7d2f7f1aa853e85a59ab1db03739df29;0xd8f0844a5b068a9be929804de6b16c14;0xc26e6b49eb19ef4d51f7c40b8e576156;0x363c21f366e0c356ab9b2082d8bd1b05;0xf89dc2c156781a8daa7192ad66c07cd3;0x26eb025781df8b5d6bb729f298641387;0x3f36cf3a7771024fc7ff91bdfc69fee5;0x0a49cca757202ddd78f24d36283f05c0;0x9f2c52d84e3497014b04cb5b391faeb8;0xf4524aba8df92c1bfa6ce48956ea7a53;0x1a9eef03b01f65d6b8de444668e60d42;0xa5dffb50f35562c1b0829dfdd188b33d;0x6137d4c594ed96c7c99a62e447cad12b;0x357f039d20512f92bf0ddc8bd456fb25;0x7ba93bc624f2f311714426a22f2cdc69;0xde76c096d7a791d0c1c6bb5ffea46f54;0xb508d8f4146a2aca70ae948d9151bbbf;0xda33b8bf9ed883a2f1cd2843ee036d95;0xbc02363d05fbebd31cca25b2b5855e5f;0xd77c2e5fc63650c9ada20a60da708ab4;0xabd34fdeed0a5d6ef87b43d7e910b43c;0x22ae7a7ec8a0992f5bbcbaee88c31146;0x66318e829b236871ed070df15b8633ca;0x3af3a988bd61f5c0fb8656a6e8971d85;0x9ae9346a8424608e777d0c402de14dd8;0x6b7e1862c3cdbb1ab1682fd26ff5d4eb;0x05c566b2ca10f78f3c79c71b14fee360;0x6f3b604b8ab2a9688163bcce7f52d62a;0x8077db69343b0558cfa348064507409a;0x5cc2270a26429db116815b57b3112e4f;0xfbdee0af10c9f649bee76ea46a2b9cf3;0x897d35a025aac441a3c7f93961d3a57a;0x5e011bffe39c94880e65f359bba32fce;0x8a3e17ce631b2885b75105306d38455a;0xbb046c7a0a35156538574aa7a9c9bcbe;0x6df85cbe4f6ca051998714c077e0d7ab;0x9def6e2d8bea9e3853e0635531adaf39;0x25a82039c76e67997f21d5fb948ff3a7;0xc4e82f9567b8f4067918ff1996426216;0x151245162d2fbf84fc55ce6b5427ebe2;0x85b2bddbfe2bf2d7f3da8f1d51f9a3fa;0xd6fc30c44559b534a1d05e67de296b15;0xe1400faca0d6939f06392ae202cd91b1;0xd43f0c318087bc0db934f669d69b6a94;0x00000000000000000000000000000000;0xd1fa6a834a974b82854d3172c26589f4;0x7e6c5d74eee2049e4d3de1b93bd23f09;0xb8474e144c84f9a12cc1b6aea5225c9e];
   [0xa555a490c68d2fd571800489cb721b5d;0x2d90754e36f99f176287a35a488aa415;0x329f4c809d5fd4f3bf6c3b64ae3d18e9;0x8f0b946d4bb17f15811e6cdde4ac86d3;0x0e5f8aa5b5495d6de732551ccea872f5;0x3041f8fa20c6cb669e27a660c105c9ce;0x38bf6dd191e7b7771ac89770bee50b52;0xc0c7666e809eaa5b3d9cdd438214a2be;0x54bc6039d978a04323ffd0a85e7ff9df;0xe618684c0572b8630b7b7d0f0c5a9ce2;0x9e5b2706555e699cbbc7a1ffccb348da;0x39d037ec2e4a59dceb0c387268f982a0;0x55d33a0466d54ee8d23b7faa8863702d;0x7ee250c45444f083d361b8fc71a16451;0x521d7fb7dd10813f4022b4a4ef3749b6;0x916bf79e5fbada5aad315be1d407b3dd;0x64fd98c3f9be6b25bdd876c89f7a3011;0x03b1ee470234f13ed08f3206b92458d5;0x570d8e7edb4c517df370e2aee75ba10a;0x5ae3ea9c6c31fd2ec4cd85b490d78b2a;0x1cbed789a992bada0d64aa385f93e429;0x60823337404f55ccff4e8fc0410a515f;0x07ce45b3bbc5cfd79219cb0e6754399b;0x18c17c7d106384334ff2533081e38567;0x21114b913e29ddefa4fe6b42e91a07c7;0x72636e1b5c94b27b151870e4d031c783;0xa8bbc07271f08386463d6393bcfe317d;0xd197d5059e71bcd207451061aa0b6cb7;0x29efdeba8f08a1fe20115a5296fac55b;0xc66679e084f68b275e41b94f335c12d7;0xa43afead7920c17e8044ab8b1d6e92af;0x3f7128622a2278a088d15c7ed9b132c9;0xe0b977c2011a991f68a61903bd122c8b;0x27b0541f3a41fc93c7230f4e5852b7ae;0x8dd52017f6286080a055f1d98b9457f4;0x0c813edf08d042f8c679c818a190a3d2;0x82e5f08ffcccd346b6a30bc79320acf3;0xea9956930da2fa9bcd02b517adca3f30;0xae1adffc7598a2fa25e0079f0db68114;0xb40517fbd862395c4b59c9abe36dd554;0x9a248cf2ecaf5775f95158f712c32994;0x6333dd70427ba4f22fc1bdc6f82e098a;0x496ded8dcf47f432df5fd592d7f09404;0xe5a9860b0746495ddbf44f09b57ec437;0x422296e17c52791d8b3fd68411340e4d;0xe4c6dc36b8eba7f62a30e00b63624dc5;0x152f189fa71e2860784f342af66faf47;0xb7b4f9bcda56c8629bd6fbad5a498d81;0xc839f34531bfd64ab973ec53fdf46022;0x06a11f8e0468217c63dd640cb148b069;0x70bdda61e10dadee3453ede0bf0916a4;0x9deac941576a98a26b4893f97597100f;0x419378a67e6688235bb0e482a8105698;0x75ad2ba8e7517dac8701bbeab765fe18;0x19ae2640afce6a98be36fc3257ff0c95;0xc956a9788e1238e148b743512be8e9d0;0xaa657408cc699c136776fe97d3c6e05a;0xfc07a04ba88823c565c2b33be281c8a2;0x4d12467976b6cadb9dc92c9a0980f54a;0xbf4a6c976b77b4731f39cabd25a94f1d;0x2a5e30fd8d3c50c0f09e68542fde9d8e;0x730c3426e3395cd0e4dcdfe6062d4e71;0x8444ef01f8a4f23ad57e6fcb22681c9a;0xd5e87ef12780823b45d3e969747b0df9;0xc376882982aa5b65ed13ef453b30fa6b;0xaf7585c1ca354c51d424a89ddbaa08e6;0x2b316ac03291be6b015ac756f9c2147c;0x869a5b7b453dedaff435f2cf4d50cdbd;0xa78b10ea7b14304050cb998da44aca7a;0xb115e632de3ee91ef80b9fa1eb013de8;0xb2a40875dc0a18202884ada75225653d;0x5b8cb0a1d39c138535092ab646cb02d8;0x465d3d15c5a347f4c9a92f8ccf446f03;0xd349617f23e8a347260e8d65c533bd90;0x9f347d3beaf387374a030efd1aafc128;0xfd68fa761725cd6e94061c39349d4150;0xd48724cc982d6c90b417466ba267840b;0x0f30d0980ae4b3c616f6fa1e18b4fb07;0x9c85937ce8c776099a8c3cfba38b99fd;0x2f4ec1348b60808243cc3e5e27b27532;0x9b4bd6cf5302b9de0895f7f5c4dfa066;0x434dccdcc3ff97b67afb7986c72887bf;0xef89a75a0bfe2ad97e50e31da5a6d78c;0xd969402e2f50c0c383aa2171d5ebae2b;0x792c1577ef813f54417873f216f55dca;0xb6dba38165fb26c96a1254af8c550473;0x5372258a62bd6f94b1e61ba6392bc044;0x7f8d0af9ebe91e2822a517fea7bdeda3;0xc1a83c533f3344f0cc58724154082b4c;0xf0869e94a058613da3bb7b2343116b70;0x23cfffeb83b0c27a85b5f6468622d6e0;0xe7773271badf56c8fabfd20dda461510;0x256ee06587d8e306e668924a376a6689;0x5e9c4168d5c0c3c7865b7cbc4ea7ea64;0xb56a4dc667cfd7f7ba9d66a935715ca6;0x1e6063f3140ba54f2c2f373c30ab350e;0xa29be1237d48e002e399cf87ac2622c6;0xdfc85fa02b38e1bfe077457d64a31e42;0xa6e44ad7c4b9deeba10f368f72564388;0xfed9143115113c5044892e3f8db91985;0xacc46b86c801bd6f04ab9a9b628e5033;0x22a0a5d63c1d2cd174715944503e5f12;0xf9175182aed4f387d690e531eaed201e;0xe267c3b8bc83868a49ed8407d22afdac;0x4adc03cacd73050c0fd0e7946ed4ccd1;0xbcfb82d06943454dcfb6f8bb9c8d17c8;0x35510933269a1b242d75f06ac9692172;0xcae7473f8c26c9df9838715792ccb105;0xeee6fd67b453c4728f944c1f73ba5e7e;0x78434f4a502cd1ffb0bcdcf0c0e9d438;0x0510f1c9065cd042b352560a086ce8bc;0x6bcd485bf35ad8e3ab2e8cd687cecb16;0x51ac91f0df24700190ad86a256131163;0xe1d62dffbeb777b49962b6016b0ea579;0x595204db6e050c101442b7b229f3d3ff;0xa3f4bb1ec2e50ea9125d60857a3aab34;0xf2582aee1dc17ea882f0e6272c29ba57;0x71d2805c5ea04345c59742e269159f56;0x5662d44364e1bfd602b44dac314728f8;0x1150b36b1eef16893ad9cd22281fce09;0x6aa212664cf736485aea23d451d242e4;0x89aa8be34fd95e69e2c308d155e436ba;0x947b065759e60a181e630debdc6b5b61;0x6592c2fe4613858e4c1cd9ca4966b9e3;0x8cba7a2a49858e2b51915edb5d88de06;0xbb35c763d2868a9a5daf33b5fbd92e53;0x77739fd25ac86239a64a26eed85d2f3f;0x3cc0c6252816899e585e6e7860956a1c;0x7bf2a10d521820c16033eef679cd8ced;0x2880848730a54f55d1d5f55040e64ca9;0xab0a2e3573c472b896b2519505da69a8;0xd2263b429c454decd7ca2267132f3462;0x312ea2c79f6b25cd6fe309621719403c;0xdea7059d94950f1411b3ea7fb2bf97b0;0xc4b8cd9a396f94b27f0a244b5c64c3f0;0x5ff31b556a6d2d6c779fd3be98bb6396;0xcc4658b1884ee8a3fbe5155b2384016c;0xcff7b6f68a7a199d2b6a275d9aa059b9;0x761cc5efe5658c92578e89ec0e41a6cd;0x2cff2f73895471bc93430c589e962de7;0xb8842924d0b27ba48d2001b342fd7686;0xd8061a1390fd2e68726e8e7303f727d9;0x2e219b0934cd6e29b208915cf1aefcc0;0x36e0e77424aeea1afdfac26c704d79a7;0xdbb7f45492c9df56a2e1bc75bad37f0c;0x6913fc214ec3c7768a6511d2e8f61a31;0xb3cb524863a7f68bd94002a58439eccf;0x144042a218b3c6cb898b9b28207326b5;0x95145c6ae64be4b3efa7a2e90a77d293;0xbe2536aad4da5ad8eefd65bff3b5c6ef;0x625c874dfdd64a59de0512c42e328078;0xa12a0f647f7c113c3316fd8115027a13;0x3b0e839693d34649ca47a57607c15387;0x169ef6d8a52ad95ea8c0062c4f4bf792;0x66232cb9442774b09c93ebccf042e136;0xe928b8d40f960ba51d8d871114ee67e5;0x5c42f5126859dc52a710e1b8219f3b43;0x6c030de8489f1734393747d8e09af28d;0x6d6c57d5f732f99fc8f3e8da36867b7f;0xadab31bb77ac53c4f56f3599b492d9c1;0x378fbd499b0304b10c3e6d6ea651f055;0x61ed690affe2bb670e8a20c29716d8ad;0x4bb359f772deeba7fe144896b8c84523;0xb9eb73196f1f950f7ce4aeb194e1ff74;0xe3089985032e6821b8292b050436745e;0xba5a9d5e6d2b6431ac6b9cb72dc5a7a1;0xf1e9c4a91ff58f96527fd421950de282;0xa0455559c0d1ff97c2d25283c31ef3e1;0x852bb53c47091c9124bac0c9f4749568;0x838aaab243613ded4767a4c5453c2501;0xdad8ae692d6431fd532513776ccff6fe;0x473267287a0ea95f386d808e1958e6f1;0xc5d797a786c27a198ece8b498a784a02;0xb07abc0f619307b509cf30a33d1db41a;0x33f016bd22f23a584ea894667821911b;0xfaa6bfc5ace002b9061fd73753c978cb;0x96a5b22de47f158d3f2890efb3538a46;0x6fb2e3af4aabe60ae9b875de59beaa58;0x6eddb992f50608a1187cdadc8fa223aa;0xc219d2143d07b5ce1cd74047ed2c7399;0xf627811aa4304041c0661f2ff259db19;0x50c3cbcd60899eaa616929a0800f9891;0xffb64e0caabcd2fbb54d813d5ba59077;0x5d2daf2fd7f432f956d44ebaf783b2b1;0xa9d49a4fce5d6d2db7f9cc916ae2b88f;0x8e64ce50f41c91be70dac3df32b00f21;0x17f1ace51a8737f55904a92e99577e60;0x1b70923a1257750d9f7d613638c7ddb2;0x97cae8105bd2fb26ceec3fed654f03b4;0x7d53be83567001bd03ee8afac8853c84;0xec38491d09cadbe7aedfd11b1c828f59;0x583d5ee6d1a8e2bbe58618b0ffef5a0d;0xf748db271b9daeea31a2b02d244552eb;0x1f0f39ceaba64be4ddeb983ee6b7bcfc;0xfbc9e5f8134dec12f7db783585d5f139;0x7c3ce4bee9ddef16f22a25f81e99b576;0x0991cf160e8c92ba752b9e12a9fc4b6e;0x0dee64e2b77dac5337bd671a778c2a20;0x7a9dfb30edb5ce6a91f741f4afd1051f;0x674c7684fb8a9a1b6d5744ce265e68c4;0x45ecd352c797b6ca19261d8a766037d6;0x87f50146fa90030405f15dcd9b4c444f;0xdc79b1e7290c108130f8777bdd874697;0xe847e2e9b03be50eec492813c2f2ee17;0x4fccf203cb2fd54ebc82b19e66b8246d;0x1dd18db4163f5471fca0053a898f6ddb;0x4ea3a83e74823be54d461e9cb0a4ad9f;0x047fabf4b9f13ee94296f908de70614e;0xebf60caeb20f14303cc61a157bd6b6c2;0xf8780bbf11791d2c27544a333cf1a9ec;0xf33770d3a26c900373344925fa3533a5;0x3e1e725f958f960b7915f37c0fadbb3b;0x3daf9c1897bb6735a99ac17ab689e3ee;0xbd94d8edd6eeabe63e7257b94a919e3a;0x8a1b65a44dedaf57324c3ad7ecc06e6f;0x88c5d1def074b0c21307a7d383f8bf48;0xdd16ebda96a1fe2ac13cd8790b9bcf65;0xcd29028c37e306080a21ba59f598889e;0x0b4f7b6cb3158d2f54600316c6c49a49;0x138e0711a376091c1b92502647271f2e;0x98fa3888513648e0d81ac5f37dfbf8b3;0x02deb47abd991f95214b9d046f38d127;0x93b543e4e223c5cf8c7ac6e5bb3f62fa;0x803b44f54155ccd397e896c3fc187dd4;0x9004ada3e01734f15cf5f4e3021b3a2f;0xd0f88f3821dc5279f681bf637c17e545;0x2401ba5838750dad17ac3d48e176ef7b;0x343e530e9937f58fdcb15f681f75a880;0xcb881d02338b277469fcde5544d038f7;0xed571320b667354c5f1b7e19ca9e06ab;0xf4f9356019a95fd4e12d822b9d610a3e;0xce98eccb35d7f736daae885f4cbcd04b;0x999562b5ee9ba64b29de6af1abe77141;0x103fe956a142f822cb1d6220fe0347fb;0x4483896f783a5861e8e2b288a07cbe24;0x40fc229bc1cb6688aa744b807e0cdf6a;0x92da19d95d8e2b647dbe69e76d23eb08;0x3a61d9ab2c7ea8e23b830a74d1ddda75;0x016f5a3dbfadeeabf1c4af02d61c89f2;0x26df0e2285ec123836e7a04c8e4e3e5c;0x12e15d2c1cdbe7b7ea56ff24913b96dc;0x1a1fc807adfa9ba66eb9ce34eedb5440;0x4802b7b070ea1a992e9b7a9001ec1df6;0x687ca61cf16e29dd7ba1bed03eea93c3;0xf5966f5da604b17f10e92d294b7d83cc;0x81541ec8fef82278662c39c12a04f426;0x8b743f99f24041fcc38895d53adce79d;0xc70923dd3b5b658caf85164de5409b25;0xd65990b625b47305955cdb6fcd5f552c;0x207e11ac81843344553ac4403f068e35;0x0a2021510cb86384a5a4ac1410d813bb;0x08fe952bb1217c1184ef31107fe0c29c;0x00000000000000000000000000000000;0x4c7d1c44c91b24706c0d8398df9c7cb8;0xd736ca8b9a199dae6498746d1b43dcde;0x74c2719558fc930776c514e8617977ea];
   [0x51f65fccc9bb4bca7e52ea5b67a2efe6;0x33aea503f872cf10acdb4106b866ba67;0xa46a1517526fc2d07026cb2e948b8e86;0x67dee5a5d27efaff184a1989a8ce6ead;0x0acf3ed405adfc4a5745a76bee147658;0xe7849dfc9297e6092c7c703bb60d1e59;0x28baf8d614f176eb9fd7d96f3e501ba3;0x1a5531760d191e24b03303ec9d3478a7;0x6c50b7d23649a16acc3025675dd8c196;0x655c3d20d3897782dd34ec409eca1f6b;0xfad56b657dce0b7593f234ca6a372c14;0xe8cdbc42748d6466b1fa65842f13532d;0xac27f3465635b3e7e21d998c4c9b8918;0x5a780dbb2d8c105faa28d6b592b440dd;0xa9a1ec2cb582cdc228de2b583b91b234;0x306d1125181fe5b2ea9a2f4a956012c2;0x8bd42a2ea4de4763e04c555cebd5dfcf;0x8399cc7fa0843654727707fe33c5d851;0xefc97bad96cd973ebe4722996e1d19c7;0x669f890633e45d209b75820cb3ccb7ce;0x145d7c6b0a993b94ae8a8dd61f28ecb0;0x0dcbf93be7ed0f1258f8e076af1a3cb2;0x05861f6ae3b77e25cac3b2d4770a3b2c;0x9242af7e49aa73e5163e38fc5be70fcd;0x7a8f133c3d271783a7c45d7874f45ce0;0x1359bb84e8d9c8cca137cacb5e26a65a;0xd8a0ad676c9281d45b604aceba7341ef;0x875ebfb6a2a9efae3b8b2eaf5fcd3a1e;0xb5b17616bb418761146ff42cfca9591a;0xdfa46a888ed2728c54dd0dd3fb7d0b05;0x91811b58a9c75947507f56b076e1a768;0x2d3ce7bcf74608ce55146bbb495a208f;0xa0ad66de50421b2a39dae27ff8836cc9;0xbf7e48c2beec7b2b432a534712bd2f42;0x24306d4e1286de264410a29c8a48fe72;0x4921b63fc555d8930b1f1c7ecc92e687;0xee88170e775730e13d78b91c751fc0a4;0x2c7d8b1f16dcaf11d62bf03e5258f9ec;0x1d51f699ef59ed7cbf8e44f1dc3a324d;0xccfdd10c660bba40f5eac718a55bad5f;0x7ccab8703efd43042b4681e02ef8cf69;0x8e523544476939462a8fe7889cdfe4e3;0xb87a8f2d5cac88734c97145a53b365a8;0xe6c5f15f730d41d6af43ebbead0fc73a;0xf4dd26787a4e2ec58d4bbaf0e82bb803;0x26b2b5cb1371535b816e5755bc4c8fb4;0x1b145dd5ec83b9fb330c98698636a1c4;0x4f641d73c68f8c14879dc0e6969e750e;0xd56b545c8b7f8ec60398aab815697d5d;0xc5f15bfe83cb6ca8e4ee0e3f664973a2;0x50b7336f2821ec15fd6d71de7ca03685;0x794ca71add4a3d21e185333459f2f445;0x7744ea07daca1891ff3cbd0edbee6052;0x16dfa4ee0b6eb6e96bf4781f292c9d76;0x5235ebea29d66168381384174aa44743;0x151c10c8eb039c4b2db51653042a35d3;0x9b4e258cac6aa50d073af1db98f5d130;0xb4f01ab55adb20be97506fa9e7ab8079;0x3e655c381f9fc002f423a170177c86d5;0x805a785940e91cf6343669b21ec370f4;0x3628ba691bc5b1356618f3d2cf6c814b;0xd32eff1088a5da418f1a76204f65eed4;0x2b794cf0f49c5c49d996b7231356b306;0x01416ca3e19aa7df833f9b851b02d963;0x99ccfd09ad9d2870c2440412aef1a0f6;0xdd26b20d8f25fff191a3f81acd797ac3;0xf65ffefd7bb9a3b848354f39de2fc9c5;0x6897c41b3464789085cc0c3631d023d9;0x1218d72709436f132208514e45247f39;0x8a95468d4544e0bc6373ced9f0d706ac;0x090c8af2e5c0d6e81104c927c312defd;0xa6e8cd9253984fadb5583ee7a28fff40;0x72c2f56d397d66b435ff0fdaace45b7e;0xc4b0375d6251cb7767d195ba7d4baac1;0x3aa22ff11db219f8bddf88217b74649a;0x74875e213aa73233b97dd342f6e8c8f7;0xc136283781e6b552ad12276e0a4191ed;0xcab87a4065d1eec779681b80ff573ed6;0xb93be38ebd362faccfa88fdf48b1bccb;0x70402de8388aebc9f081fa139ae02ab8;0xbcbdfce45e815189056b3d0b3fbb87e7;0x34aa62ec1a323c48a366061bf968f08d;0x6a151c9e3593f5ed40b2f9ff07d4521f;0x4860da9c24cf7f4c882087fbd7903fe4;0x5ffe12d1ce3b6e7a60eb6461e5be7bf1;0x8f1359e7a6f39e99a9b07c0d87dd3d80;0x69d6a8b8d5fedf4f06f397b32ad2faba;0x9a0f492f4df002d284056a5e83f70853;0xda2275e26d650ca99e1ebf078c773029;0xfdd1ac8a9f8ef82d9c4f73d72b3966fe;0x39619bd7fddf335afb9ee66d5672cc3f;0xa52b79b4b3f5650ff31950ab8f8957e5;0xfc90c0297e145ff21f70e852303bbf9d;0xe0805a1370d7155123c13726f70354b3;0x0c8a95980677a8cddbc77bf3b418e5d1;0x57b3f480ca611f4df2d036c33dae7c6f;0x547040a62a0c35efb491588f10a8d4ca;0x8d918162a70413e46cce89c4b1d94c46;0xd26f93b3693f7d9e0c25eda5546737b7;0xf71e925e9a230467cb0ad4bcc52d10a6;0x5ebf7e722fa1c9a5e3d4ffe4febca292;0xf916df439da321d7d5b35a86473184b1;0xf2988d3479947a4201c96668b2272b8a;0xe343ee3590ba3ff36580596ada05fc16;0x3be34352fc28be273ee013a46076bdf9;0x03c3b426e06d2aa246416e4c2d06a8a5;0xa1ec0a7db1d8bcf5bae579fae381b5aa;0x9685dcb74b87aa1f5fc211ad37efed82;0xaa62580a55efe7606e9f451416971a91;0x9f895645ae477cf74ec6d88af4fd337f;0x46689781234f5afc969909c1558cabf3;0x416c506ec10fa9a499244edc1482e119;0x2a3820531506fb965aa92ca608546a65;0x60da224a303e09a717f75e94e9c02447;0xe506457993606b74e90285f280096f9f;0x940704324a7027629abce46401eb9c44;0xbe3f24615f76dcf4c015c8c209bff621;0x90c077fb485dfe98d340cd356de37e0b;0x2fbe3f39f6b185b3906a9e727f5e5149;0x9d0b8ec0afb0f18a8bb82d43c2f942b9;0x811b14faa173bb29b709f23705c1a997;0xa22fbe5b51b59657fca417b6ce871d0f;0x760586a43b50bf4e7c03268bc0ecb931;0x4ba36ebac4a255eece61e9b7fa969741;0xe44729da72faccab6a3d1e779b0bb6fc;0x0645ab4c03da54878c82dc985a0c9389;0x55312c05cb96923037aec30a0baa0da9;0xaea52bc357c23e9a27636c457a9ff8de;0x1c109a3a0ec34aa33cb1df74c738eb2e;0x75c63282db3d95ec3a4248c7edea1194;0x5b396118cc16b78029174d3089b699be;0x04c773c9022dd9fa49fc29516c08e24f;0x27f3d968f2ebf4840251ccd0a74e56d7;0x4de6c5f6c778016942e3352fa09a04c8;0x9c4ae2634e2a56550887b6c6d9fb9bda;0x20f71e8710ab07dc0dec8bcde6401c3d;0x53748749c84cc6b7bb2c1f9251a69e20;0xd0ed4b3668c8f0e3c95b186c62634671;0x95466891abea80bd19837fe11ae94527;0xf3d9e197980edd9d82f6fdeda925f2e9;0x85dc6733a35e62d3fef5db6669c94bd8;0x88179e0844b36dc1a60d3b10c6d3776a;0xb037697c58f6f944deac46f88ba36236;0x2275c602115c8aa1c8927e04d0446dfb;0x0b8e5277e4375b95d47a3ceef516af3b;0x0282d88501f78d7dc57ef5c9360471c6;0xc97bce6685bcc4653f2975ccd2519673;0xdb6319418cffab761d2124829775e94a;0xb672c2305b2cadc3522e9a60d1aff1bf;0x402d3ccd20950e7b1a1bd5590f80387a;0x4e2571d027152bcb04a25b638d9cac6d;0xd7e98cd98a8803bbc6e65f71236d0c9b;0xab2334a9b47540bfeda0de910d95c3f2;0x988d91aa4c078faf417b9f97b5f37995;0xc83aa2c5642663babc16ee49c9534f10;0xafe44760b6589945a45cf7c0619d21bd;0xa36ed2f8b02f31887f9b8c33d585c46c;0x44ea4f0422b8d78153e7fc086388da35;0x849d0b9042c4c50c7dca40e372cb92bb;0x9ec83ae64fdddb28cdf9430fefffea1c;0xe20282967120982ce6bfc2efc1072575;0xcdbcbdaf87911d9f76d55c9dbe59743c;0xfb9407c69c54acaa10cdaf4f7135f577;0x45ab23a7c322705ed0d8678d788a0356;0x2334aaa1f0c62d7e4bade581cb46b498;0xc632efd863a6460aa2af60734b4fdb07;0x3da6e81efff2eaa0b262cf3c3a7a2e70;0x179ec84deaf41136e8cbe39a322e4415;0xeb0e086494e04ec4f7bb0bc80215fb88;0x2eff539a172b226c135505f7645c882a;0xcbf916e3844b4918fa578005e455e7b5;0xb2b5b1f9590174391bd2b331bda713f0;0x5c3da6f72e5644d826aa0a2dc8b8d354;0x4ae202192538f2314d5e7232e1944e22;0x641d51833213d05d5e0b77c585c8c608;0x7101414bd9104c1673be619681e2f3db;0x35eb0e4ffba89b9720599d9ee26a29ee;0xc773837b823ce1d52190fbf6504d0264;0x0704c7efe240f3580fbd471d410e4aea;0x59bbb99dcde13afdec69b8f9bfb2e878;0x3820f7741c45948578a17de84d70155c;0xea4f64c7757ae91b7484904d191722eb;0x3769d6cafa5f16eae5276857d46e5828;0x6319966cd053230551b630d8c4c68ce2;0x18d7e9f30cee9359754df625ab300961;0xa7a9a131b202e8723667a562b98d2623;0x58fad53e2c7b9d226f56237ca4b0311b;0x11db6301e92e45b164493f026822d79c;0xf59c4adb9bd4891a0e742175f3296160;0xd9e1c1c48d08260bd85fd14ba171988c;0xe98cd0e19517c3b932c5fe0134118a4e;0x257101edf31c79f9c72f3919914a2711;0xf857b3e07c398608568cc1035c335dd2;0x97c4b014aa1d0dc0dcfd8a282ced34e1;0xb17605dfb96c5e9b5d93dd7d90a1bb55;0x19968550ed743486f6726da0b032d002;0x0f4921bee61a826f9d8615bf991e4d74;0x8956f2aba529ca1e2532a095ddd1ae09;0xdc67deae6ebf582e129c639fd67ba3a0;0x084de651045a7137923b52a2d810079e;0xf15b391299f950e0478808249f21832f;0xa8e0808f54186a1dabe1b0dd20936b57;0x0e084d1d078025b01eb98e3a821c9417;0x6f9303f4d6248bc88a714b2b70de6933;0x7d8bd4d3df67e4dba8791a6535fa160a;0xd42a38ff6ae5291980a7313d0e6ba43e;0xbdfc9047bf1bf6568654a68e24b95e84;0x861fd31543334871b8b4b52a44cfe37d;0xec0acf8b76a0bd9cf8064cd5431bb162;0x32efc9a019e868cf2fe4da83a3646304;0x7e4860f53f0ace79ee38742918fcbeaf;0xed4ba328973a1a437b39d75058196801;0x6ed26f5737be2c17094ed0ae6bdcb050;0xc3b4f0b28011382f686cd2a73c45e02b;0x21b67224f131a0038ed31048fd42c55e;0x6258facf31c984dad289ab5ddfc45581;0xce7f098967fc373d309432d1935fdc99;0x9303c3dda830d43a9501a37940e5d6ae;0x4ca7a95526e2a6b6c1dcaeaabb98ddab;0xdee5062b6f48d553d7e29656e07fd266;0x3f24309bfe0567dd771c3af50c7e5fb6;0x43ee88ebc0f824d95c5abb15228690df;0x738399ced8e7c16bb6c0945fb7e6821d;0xad669fe5b7af1438612202095799507b;0xf01a55b17863f73fc4b793a184235a4c;0x4729fb22c2d5fd2315a692444e8e7290;0x3ce784bd1e684d7f315d54b92178f713;0x619b4ee9d1a4ae7894c8c511f2c2fd24;0x56f298232bfbb89271efad4626aca50c;0x29fb9475f56bd1341ce842ea2552c2c0;0x7bce7f9fdcbdb05c24fbc6fd6ff68583;0x109a0fa208b4e26ee776a48773200eff;0xff53740f9e7975505931861e1d3d1738;0x5d7cca54cfcce307a59591a8d3ba0a37;0x312c7d86f985426d69a5b4cf8e62cba1;0xb733ae93bab60a1cd11101e5caad28dc;0xb3f4dd5ab89bd3e698ed28b4a6a5ca93;0x6b54703dd4095232c38d627a1cd68b7c;0xc0774494607c128d2e2dbceb1143488e;0x7f090c56de9069a66d07efac03fe67cc;0x1e9242bf0f34c7def9cf2abdf13c9ae8;0xd1ac27958952573c4a6483e979619f12;0x780dcbb93cd09afe62baa8b142f02d26;0xc2f59c11618b9ff0eb53492227473948;0xbbb93b0bbcc1a2d10ad67a167eb5cd0d;0x6d11db71d7d306b54f0fbee246da18f5;0xe1c136b0914db28ea0feaca3ec018dd0;0x1fd32e1ceeae60017af0b138ea3e438b;0x82d8a0dc411e918bf1489c7b28c70132;0xbaf857a85d5b050e89e9e19365b7146e;0x8cd0edc1469eb43beff11241aadb9525;0xcf3e652a866690e2b3aba954885d05fa;0x00000000000000000000000000000000;0xfe1218ac7fe3d28fda0e1d9b063fce5b;0x42afe44821628306df652090398449bc;0xd6a8e07a6b12a46445d9c4f4386fd5f8];
   [0xd859e0f8d22aca1c1758254772a81d31;0x69b674385c6410ef82eeaae98a53b7c0;0xc0d241db4a91d0a155ac5e8f3d01df89;0xbabff75c5408ffc732a4914eac20dc8e;0x16a0c6fb778c4a688d243c03a875ecfe;0x8768acfe5ba509f4e0a017cf05d13c6c;0x58c59e6a1f75eb637190f00ce517367e;0x5963f57eafd1245606c55cba14c2f073;0xc40f2e8bcf446a754a3bab127fd341bd;0x6a9fc9044f4b82b01b119df05aef3ed7;0x057b0444357175e168c2592bb3075839;0x9a980999f66f66a8ca96352cf97fa6ed;0x0652b978265ee7bef13d6e3263bbd12e;0xa6e9392f49665fae6fc71f1ba15b8002;0x0d02dae4fc18c28a562f70d23760a751;0xd186554cabe7b2425ee0a008071a2454;0x4367827594e16381aa9bbcdd7a027dd1;0x85e77ad6f82e549e0e0a8c6024b87376;0x41e8545d376a3eeb443127725b6b32cb;0xd2afe870b8c8201dc71f9711d7a6ad43;0x2c834f35eedb94d0d948780693ea1b3f;0xcdd09b3fb689122b03832e5d0a6178d8;0x0b50639cda462534a7121ee054db767f;0xa234567fccb3e57a7050ea86e3891e36;0x38ac5fe63adc83d2bac6dfaa1af6b8db;0xf7f312f12fdecc9357ef6a5831fe8f19;0x4b1e5cd55d88d4ea94769524fe6582b9;0xe6a70666cea8ae705ca394df0be574c4;0xe7016d727e0c61452bf63869fa30b2c9;0x906e01119c8d8ca91ad1877a5c71169f;0x1a04770b3b3047d7ac5ee0676ec08da2;0x5395fdf6c533ce57d682eeecb1cc4001;0xa3923d6b7c172a4f07054630125cd83b;0xf1a1ab8909802b2da6d2046a52455e37;0xfd051a79453c269287a8d80e94f03f6b;0x511a2bde66b8933d3828754390a50f1b;0x29f84b71dbaae131b18a212d20ed4306;0x3b85e2da29f3118d2339e8b3ca4a31cc;0x8213a8ba6ed47c1588624ee4b6d66455;0x679d13e0b353403a4d3eed226d8f9986;0x8bcc1d0e1719044bc1dacbabc3645d30;0x4837e1e94ea746b50d89a23d2ed90bae;0x2ad1f64dc885736e28751634f051ca11;0xef78b3d2b765d62e151b11907e574da1;0x709bbe0f747bc567b74f7d97342fb375;0x2d2524215e7f5be5ae1dd4b0623fdd32;0x3173ea524311fb8cf37e5ae56f4481be;0xe27a69364b7d14a4433461424937eaf0;0x86cec7eaeb01c6c197f5bb79f404fa61;0xc90df46f335ca8ff1c14dbc048b3e6ec;0xb049ffd43eea15c6e2e32318092e6cfc;0x809c7e92cd5f217f66c8d54b97bf2b4f;0xf57cc4d98c5591f9b945f1f71097c003;0xfca3716df598e9a7f0fd74b86525f966;0x6069c18c25a968b1cb562fa6ffe18ea5;0x44935019021b4b0a2cf37e59e86c6af2;0x0ca4b1f04cbc0dbf217adc64c6b5615c;0x8f11725e92ccbe9fde4d3e3681b6c304;0xa466ef07eaed02c4816d84b48032cf18;0x3dd75ba20fadf633d2048681a9f1e0e2;0x62e617a4862235db25fcb409de88c1bf;0x35ae8502c6c44158ece9af782d961f8a;0xe0f5bf1ee8f649cead9efaed685ea5ea;0x68101f2cecc0dfdaf5bb065f7b8671cd;0xdc848fa857ff70c808cfd0da307a8305;0x404e3f4987cef1de33648bc4aabef4c6;0xa0bb80576f38b8109efa7129c2e0512c;0xa74f523bf9c2909b1892b3ad508e460f;0x9fe30dddc31e1349a2546c074a78fed4;0x2b779d597821bc5b5f20ba8201840c1c;0xae90e78f800fe8c5512a36e2253c7f6a;0x10f27f8351d2add67c195231cbce3dd0;0xfe2ca7455613b4cd1e57ef17444cb67c;0xa11deb43df9c7725e9afdd9f33359721;0xc72693b7dc6bf82ad3c49c0baf6fc8aa;0x4d4ce5ad7bd63354654bfb169dde5397;0xaa4d88df05da52114ebdc37f67eee15e;0xd4fd51089e96c7a33622f923b41d7c6d;0x42c1e9612445acb4ddce106b8bd7bbdc;0x2e0c991d4d50c9ba37e2e3a9b2835425;0x49918afdfe0389807adc0e8bdf0ccda3;0xb2c629fc9d6148ac0c49b8b7284723e6;0x776f6c63e281edec3127bf13a641a456;0x390a34f28a784ce7cd93731ceb237ed6;0xadb95ab393207a9ac8d501fbf580f67d;0x2027fec5a267996ff832a462555f7a63;0xcf5f4d1715024f41ed29b5f22b0837c2;0x64b4aedca07cd265d4c1da3bbd331091;0x9b3e628d46cba99dbdc3999a08aa60e0;0xde0b5980f4742da2e6654b751113cc1f;0x7f16b2c32be85a870fca96ea22265b3e;0xa8c25ef7a6510f7ba01758d04687ae44;0xb61b46ac18b4f27813de4d2a6a95bdd2;0x5c18f13a9aa051b76e070591a7c5a84a;0xa5c084135a49cdf1f638280271e70915;0x6b39a210ffef4d856c443146ab3af8da;0xd3098364086cef28b04a3ba726736b4e;0xf007c09db924e418d187a8dca390983a;0x5dbe9a2e2a049e821952a92756106e47;0xc8ab9f7b83f867ca6b417776b96620e1;0xc5a9459f7fe0a5403d6e07a48e0687b0;0xbd4b2530c2f2d74cb4cc53ca3e4ecbad;0xc3fbfce759be42fecc536996edbd569e;0xe428d04e6d23f31ab2090f702a8c3bde;0xaf368c9b30ab27f0267f9a54d4e9b967;0xb8302174f783a2addc0e0ae18d499394;0xcb82224790d7f595f2be406f69daa9f6;0xc1742acffa351f9422f9f239ccd41984;0xb532fb900b9b60278a217a33ba2934c5;0x6fe4cd407a3af75173d3c4dbe9e866ee;0x4cea8eb9cb72fc61121e57a06c0b959a;0x979ad37d0a77a4229cb945fece1f01bc;0x88e5a032043696145825fcb213d8d427;0x61cfaa98950da784bc0383100e3448a8;0x574892a640e67483c9151b71f31ede35;0x11541497e17662e30b4cfe873a1bfbdd;0x99b1b4a5e540f4f75369023529c32ffa;0x72146827d7f0980d59e5e6381546fc6f;0x83b5c3aede70b320ff37e2524703a258;0xbfc4f31861798a265a66c8651f2784b7;0x55c7448ee36d29e927bf80ded277912f;0x73b20333675457382eb04a8ee4933a62;0x9d6cdbf560954e234cfef7a86b11b1ce;0x813a15867dfbee4a119d79fd666aed42;0x3f588d8aac26ab593cae1d2e8898aff8;0xb36042e82dc587997b1c1401d992e5eb;0xbb199c48e4ac30f245f13df85df51a83;0xd67287203d1d9ac9d888628c95743377;0xea03b7968214a3cf7dd948bbcd501598;0x255cfa819716ec8e90f0fd49e658225a;0xcef92603a5a680749a7c1944daddf1cf;0x63407cb03686faee52a918bf2f5d07b2;0x45353b0db2bf843f5ba6d2ef19b9acff;0x325a576e503e69d36a816dfcbff808a9;0xd7d4ec348db955fcafddce3a64a1f57a;0x9e4566c973badc7cd501c0b1bbad38d9;0x0879dea0c969b76b3eed29f98467ff68;0x8d9ea4763147e3f530e7a599a0df8c1e;0x79440bbb0db6bd39fef7f8d8419d8a10;0xabebe3cbb57e9d2439e86fc9963b2753;0x3687383ed5ebd30775169861fd2a969d;0xfb57a3016362c12c7695b63cf74bee45;0xec510eeea44a44718ce42689aeebc4b6;0x4e65589168f9a10bfcb4cc0f4d62da80;0x7eb0d9d79b4c95b2789f3a5cd3f39d33;0xd0203e581b437d7729b50cbef6cfe259;0x6ccd707c6915650eea2cf3c23954eff9;0xf32e7da1aa0b764748789fc5732c112d;0x5f314c06898fc3e8f7f832887779215d;0xff8acc51e6b77bf8690243a1b5997071;0x8a6a761aa7bdcb7eb68f671d32b19b3d;0x56eef9b2f042bbb6be40b7c702cb1838;0xdd22e4bce75bbffd7f9a7c6cc1af4508;0xb4949084bb3faf12fd74d6854bfcf2c8;0x04dd6f5085d5bad41f97f59d42d29e34;0xbe62980cd1dd45132d3364d3eef242ba;0x1ba21c1f8b9488e2db0b4cd19f154baf;0x9ccab0e1d03181163bab5b1e9ac477c3;0x5e972712392b0cdd80ad9e3e86ace750;0x07f4d26c96fa288b8668c284926e1723;0x8c38cf6281e32cc047b2092f510a4a13;0x0f8d0ccc5f939fe0b885eb7d1609e84b;0x6d6b1b68d9b1aa3b9d795f74c88129f4;0xf4daafcd3cf15eccce105d41e142060e;0x267547bd84397ed1090fca5036e4ab4d;0x713dd51bc4df0a52c01ad121c5fa7578;0x1c56ce731d6ea0695d638e550d7b5c8c;0x94b36e411958367d054672e71ea388ab;0x22a828ed01ecc40516983fcd74363579;0xeba5dc8232b06cfa0a8ce40d3c85d395;0xbced4e2472561879c399ff7ccf9b0da0;0x3c7130b6bf093906a5512a37582426ef;0x15897bc764a3d83714db0b1a78c965e9;0xe92a0aaa913b3190e4267fa21dec9c8f;0x028fd628a38b5d6aeeaa9baf21694f1a;0x461c8631a1901660c259e5f6c90525e8;0xdad636d071a19776f9f2bee853c1522b;0x192dca37281fd58835a1d77ebe7c04b5;0xdb705dc4c10558438ea7125ea2149426;0x1ed9185bbee5fd03b3c915fa2c121396;0x1706adefc728855dfa7190b559a02af3;0x4ab837c1ed2c1bdfe32339920fb044b4;0x0af608886ae2ea01d047b256a50eb072;0xd9ff8bec628e0529600d89f1837ddb3c;0x8943cb26b49259212f705004e20d122a;0x78e260afbd12720c89a2546eb0484c1d;0x76c90777522522d9467213a55794625b;0x27d32ca9349db1e47e5a66e6c7316d40;0x188ba12398bb1abd42f47bc84fa9c2b8;0x230e43f9b1480b3061cd937b85e3f374;0xf28816b51aafb9723f2d337382f9d720;0x95150555a9fcf9487213de51ef764ea6;0xd55b3a1c2e3208964177559545c8ba60;0xa96435e316f5c04ed742f466b7526849;0x844111c2488a9bab795f20d6d56db57b;0xe153d40a585286fbdacb565b998b63e7;0x1df0a567adca6f5c2a3622e3fcae9a81;0x9347bc2d8fa21ef6832eb0638ccd9f88;0x285e20656b0e2e04c6df8d9bd138850b;0xc680f8a36ccf371fa49130bd5eba0ea7;0x7bcbdd93ae3de053105d637760f4c50a;0x6512c5c810d81d50a394768d4ce6d69c;0x75e0ba4b410ab086df8d24bc8728eb4c;0x7c3f0fff38c7c8d89635a1f3f29ad229;0xe3dc0222fbd9db913461cdf4b8e22cfd;0xeeded8c607c1191b624ebd268f828bac;0x218195d112c3565a8f6708d4a48abc6e;0x8eb7194a226871aaa918928070630509;0xf9d87529c0e99c46983f2d93d622a15f;0x01a66b14b0a4cf357755acb6f1d5c60d;0x5bec23560c5a793ce86fc71535abbf69;0x91c86a052c29439c6d842bccada4d092;0x142f10d3d4071702638ea7ac891ca3e4;0x7a6db6871e992f666708cfc191210307;0xf65579e59f7a03a620bac6eec02b4914;0xb1ef94c08e4edaf395b68faef8fbaaf1;0xb7bd2db8a8103d4d648be19c9b407bdf;0xca24495320733aa085ebecd9980f6ffb;0x5a4a4842bcfeb6099f3a6ba3c47e7964;0xf87e1e3d704d5373ef6a812527f76752;0xcc76f02b062ddd1e74d682ebfbb4bed5;0x47baed251134d955b50c494038d0e3e5;0x963cb869bad36b17ebece9483fcac7b1;0x6e42a654ca9e38640486686d183da0e3;0x13dbc2bf42fd3f89e5e665281b72b4c7;0x24fa919527b223bbe7a551ff178de457;0x7446d15ff1ae7fb3a8d8880a76fd2d41;0x09dfb5b479cd785e49b8854f75b23965;0x0329bd3c132f925f99ff3719d0bc8917;0x30d58146f3b534b9842bf6539e9147b3;0x50bc40cad61c5c084f7dd9f56170c916;0x4fc33385d85d6e3e8be160b9bcb71c8d;0x0e2b67d8ef3750d5cfd047cbe7dc2e46;0x7d9964eb886307ede1600d45034f1424;0xb9964a6047276d98ab5ba6577c9c5599;0x3721532a654f1c32024334d70cff5090;0x54612f9a53c9e6dc50ea2c6823a25722;0x1f7f734f0e413236c49cb94cddc7d59b;0xc25d97f3e91a8dcbbb06c5201c689093;0x33fc3c7ae09aa6e61dd4c14a4e2dcea4;0x3a2389ce9957deb8546c44053b9ff7c1;0xe58ebb5add873c2fc55ca3c6db59fdd3;0xe88c61be219ffea59373d314ec395a82;0x127da9abf259f0bc92b3c99eeaa772ca;0x92e1d7393f06d1c3f47b1cd57d185985;0xac1f31a72384b5afbf80ad4d04553070;0x3408ee1676608e6d9bbc03cedc43d987;0x523396e275970162a1d7425a4019860c;0xedf765fa14ee8b44fbb18a3f5f3e02bb;0xfaf1c815d3c60e1901c01a8a069e2848;0x9817dfb155e43bc2243cae83d816e9f7;0xdfad329444d0e2979130e7c3e0c60a12;0x00000000000000000000000000000000;0x663b78f403f78f0f3a6b41949c5a5f8b;0x2faaf209fdf4068f40b74f1f43569228;0x3efee69e1c82646c4bfbb198794d69f5];
   [0xc245b95785a8db132a3fb0b9b00b7bc6;0x9559c2207c53812164561fc21f6d5736;0xa67393632901426e91389b939bf4359d;0x2778483d6920975e080c8b488bf56f4b;0xe0c86694e37559d88cca486648e586b5;0x869cc41249d11c46a51683c483144220;0x06a65b150a17a7e675aee35be3125d91;0x5d359648e7c270dbd15849964950cb80;0x097a21d41bd3989a44667621763f28d9;0x782f56c788ef3b664b8f225622ab2e05;0xf49a7feadf070dc971a8477f47898b55;0x163091cc3a7f88f26fb9ef91ef62872e;0x19eceb0d2bbbb78e5e717aeb7a4ff266;0xec47d0bef75bd4d766554dd04dc13c54;0x6988d847bb607ae218145ed85edcb1dd;0x04c4d3a70c1a7b05e77503d3031cd75f;0x8fe6e5c6520284dce170f5e5f52b6af9;0x30799da850b8713c2e39149d1490ad02;0x3903bc7c4b6be9a66a5f62bc62af85db;0xe9b24740f8a6c142c8ac3e473edaae6c;0x0353cceb05eab273db5790cc9009cfa9;0xcffb4b249261388c892cc54bc5288440;0x7064334a90dbcd6c46652433249343bb;0x434e6209c5890e23b30ba062a00a2110;0x557ef3c5fff686d1dcb24ff34f68a63e;0x2c60e15b74fed327deb11de11dc4cd5c;0x12f4426b3665f3f788ccec42ec7e5071;0x8ed7a19f51e5ea4ca8fc85a1852c2f9e;0xd5446cc2bc303d710c0a2f6c2f6eb98f;0x3dc76fdb477192a38d2a616f61b35284;0xd2d3738eb5c0f4073028bc73bc7ba179;0x76c2685f9acc6a8a33cbc768c7811e2a;0x18ddaf54285cd91e17fd0aaf0a48b701;0x358c0a565f4564a980c0670a678b3f3a;0x07971f4c09f0c9763c22931f931518f6;0xc02731e583a507f0b8e450315005f108;0xf7c9b301daedbfbaaaffd7b3d78044fc;0xb80867220b4a3c96f36b726772aedf0d;0x7206bbf896d6118fd4bec4bbc49dc975;0x11a78e80338f4184539b7c8e7c779fd8;0xb487d1081f64b19919f477d1778a65ec;0xff82d68cc2d949b0a715d1d6d1b82942;0x1abf27e62e5105fd8526ea27ea463dcf;0x4856cb6fd8574a5a65b636cb363b8307;0xaafc25493d2fcf617ba79e259ed08f7c;0x58c001b6e83f654e7fa13a013a4b59b8;0x93ff9935764426c711f8fc99fc7f0aa7;0x21de1328633730b87da2681368e732da;0xdd0f094fa404cb7b01e029092956d431;0x60f2f993a0b3e2785c7228f928e39904;0x0c8fb62a142e8d0fea9f05b60524bae1;0xc4e3e2428fbf7cf55f9153e253192657;0x9a85b8e16d97be5d559e8ab88a40227e;0x5c04d211e4251e4b98d439d239578ee7;0x53d8a8d0f5e12137a91caca8ac7afbaf;0xcd99c396946ce46f1bf725c325260e8e;0x321b151a56b5addfbce2f415f49e27cc;0x1b8e63bf2db66b6dccaa9a639a4178a8;0x5aa28904ee32b9aded7ada89da45d376;0xa1e48c2f20f18b18ad1a088c08e12d6b;0xe53df16aec884c4d22333bf13bfe148d;0x3cf62b824496fc33c4a6112b11b417e3;0x973b4a927a5e5dc2f68dff4aff63ddf8;0xceca0f7d9186561cc0a0b50fb52fc127;0x6d4c0be0b77a01e7ff615d0b5dc06682;0x62907121a6be3e9bcea9c871c8ed13ca;0xf5ab3bb3dce063593824373b378ece32;0xb7d41de31a8e03eac2a3e71de783aa45;0xe2aaee26e578853b1e11a8eea8eb0c7b;0x412ceabbc384d2c021d040ea4004abde;0x71557713933ca3fc0fe95477549406dc;0xf9248d99c8ceee56d2bb328d32aa74d3;0xeae18babfd4c733113fbae8baed361c5;0xae38f6ee3135b4649cd29df69dcc5823;0xe40cb533ef6f22dd6bbf4bb54bf951ea;0x0b18a9661dde4479d6bd96a99631a217;0xde5cc5a4a1ee7908dab7b9c5b95f1b98;0xf05eac4dd31d76cc96dd44ac44955c0a;0xd475289bbfd753e145865f285f69fce8;0xb5b695511c83df0950780795078d208b;0xa4111bd12f0c9e8d03e37b1b7bfabf53;0xba6aef900d47e07561b092ef92a055c3;0xe8830319fb41afd281204e034eddeb0b;0x0eed3e98122351ec7844e53ee52a302f;0x9c23e3f4678019bb203069e369527fef;0x3148d9f1535f1fac67b564d96497e865;0x791e129e8b0855f60203521252ac6b62;0xfcd11a67c733fbc37c42411a41b1e6eb;0x4da35c91d7aa5fcfcb4f455c4520113f;0xdba9525aae136c9d744eca52ca4489a0;0x7591a4b49f26d8f9e89c57a45788d183;0x68b99c1eb887147251982e9c2edbf4ba;0x15635d273f953a81b4ee7f5d7f6b4887;0xa9afe9a238c57d12a0f00ee90ed940d5;0x0131445903e76e90498c704470074567;0x23bc9b9a653aec5bef79889b88e9b814;0xb2218a1d1573167f6c5a948a9498387d;0x6e1fc70bb290b3942436cdc7cdc9a92b;0xf23c24ffd510aa2f0406a424a49bd6c4;0x3b6134ce4d663545f884823482a10f15;0x52e9ec89f6064fa7e090dcecdc7dbec8;0x65076e6daf4ef7edf28b5b6e5bf80b3c;0x4b050784ddbdf829bee1a607a6324cae;0x3832f825488c873623d312f812a8c0bc;0x2ac6ba4e7ee974c1ab1ffebafed690cd;0x919d11877049fa2483231c111c718069;0xd617a029b9da8f02d75dbfa0bf677626;0xfde05e3ec4d4955335ce315e31b6a38c;0xf815c9c0cb2980c69b3742c942ad31b4;0x8cb5292d57e836af3a2765296522a550;0x508b643bf00b9344724b3c643c733406;0x7fb8498b811ff21077adb149b1be36f3;0x59f145efebd80bde362d4a454a4c1cdf;0x084b658d1834f60a0dea066506386dbe;0xd9cbdae8a81eb07ee6952ada2a4a036e;0xa2b740c4251b396b764d984098e8e2c2;0xfb46052bcec332b54060d205d2a4fe1d;0x1c197cf32446a21bf088097c0954605e;0x299576a57b03c6b270486e766edf5f64;0xd3e237d7b6279a9779a4cc37cc7ce41e;0x6f2e8352b177dd046dbabd83bdceec4c;0x478ab1aec9937526547ea3b1a316f64f;0x544fb79cfc11e841953e3fb73f6fe359;0x9f702f1f626aabc8fb67f92ff95bb046;0x1701d5953998e66226359fd59f65c249;0xe1f922cde0923748c546382238e2c3d2;0x7ceb856084f54063acfa218521b7f95a;0x46bbf5f7ca741bb61df2d3f5d311b328;0xbcccb48507504793141e71b471b20852;0xc5d2a61b8c581265161d23a6231e6330;0x228ddfc366dd82cba6f5f8dff8eefd73;0xbeae3c37015d9b7086c5913c91bc829c;0x960a0ecb79b93352bf018f0e8f64989f;0x7e890dd282f89c803e21c10dc1b97394;0x1d2838aa27a1cc8bb904793879532539;0xb939237b08ad5206bae7022302a99a6a;0x9d12a7ad6467772b69bc19a719553a88;0xad6b3a0534df061747850d3a0dc5978a;0x6c7d4fb9b49d6f77b6ed2d4f2dc723e5;0x85cf08f94c3bae357e411308131d8d89;0xd180bf65b02a4674eb7f2cbf2c726ed0;0x1e7bf441224b7ef86253e9f4e95aea90;0xa5205f882cebf01d4a6f0b5f0bfdfa34;0xe66e3d81e962fe3ef964ab3dabf7db24;0x2e0269e972f30fc44c6afd69fdca4792;0x5f571efae1cfac384383a91ea95e414e;0x61c3bdcaa3548ce815fe58bd58e4dc63;0x836953ec462c09d30beff053f00fd018;0x44d97d45cc79c7558f29337d331f39e6;0xb17246f61099a40cb70d04460491f7d4;0xef141c55f2b166a4bd02dd1cddc8f3fd;0x825817b545cb6743426380178008957f;0x36dfc6bd5aafd6da5b97f7c6f782f093;0xa386049d26fc57fb3fc1e804e8efa7a5;0xaf09b2b732d2daf4d55eedb2edcb1d44;0x8871fa8a5bf24daadd5266fa663e720f;0x8940bed35815233a94de16be16393768;0x0fdc7ac111c43f7c31c8957a952d7548;0x1f4ab01821ac10682bdf99b0995daff7;0x427f2650c66e60b3fa87d026d00d6477;0xf6f8f758d90ad12ae373a7f7a787019b;0xdf6d81fda2091798933bc981c9585eff;0x3a5070974e815bd5b108f270f2a64a72;0xc11675bc80426960f16820752002b46f;0x28a432fc78e4a82239c41e321ed81a03;0xf16fe814d0fa185cdf5134e83492196d;0xcb3f98839e7b43896e59c698c634531f;0x92cedd6c75a3485758748cdd8c784fc0;0x87ad804b4a3672d6ec9af380f3130747;0xe75f79d8ea8590aeb0e8db79dbf09e43;0x3e94a330429b20d0567df1a3f1ba9d2d;0xfa774172cd245c2509eca241a2a3bb7a;0x0dbef27317c9e39fa31375f27523ff86;0x51ba2062f3ecfdd43bc74c204c747161;0xb6e559ba19696d7a8b2f97599784ef22;0x7b7c9a2c8d05891590d8b29ab2a2e1ac;0x74a0e0ed9cc1b669a11027e0278f94e4;0x3fa5e769417c4e401ff181e781bdd84a;0x2f332db07114615405e68d2d8dcd02f5;0x7ddac13987122ef3e57651c151b0bc3d;0xbb5babc90ea08ee5283ce2abe2a710a4;0x49678f36dbb024ca2c3a468f463cc660;0x2bf7fe177d0e1a51e2938efe8ed1d5aa;0x99d6740a687d0c2e8ec91a741a49edd7;0x026288b2060ddce392dbe088e00e8ace;0x37ee82e45948b84a121b87828785b5f4;0xb310ce44169478ef25d6e4cee49f7d1a;0x7337ffa195317f1f9d32b4ffb49a8c12;0x64362a34aca9997dbb072b2a2bff4e5b;0xdc3e4d16a7e3a5eb486c594d59519156;0xd8fa9eb1abf9deeeaf195a9e5a4d4609;0xc95d103198769f6afc822610263ad9d1;0xabcd61103ec8a1f1322bee61eed7ca1b;0x332a51435552c34ff56e8451849962ab;0x6bea50f5bd6da6018acfbe50bed23b13;0xcca887cf978b8aff527b558755214be9;0x90ac55de73ae94b4caaf6c556c76c50e;0xd0b1fb3cb3cd28e4a2f35cfb5c752bb7;0xac5a7e5c373868870e097d7e7dc2d2ed;0xbf9f786e02baf5e0cf49e178e1bbc7fb;0xda981603adf4020d3dc2ba16ba43ccc7;0xa742d73a2ae62cfed8b4ebd7ebf370fa;0x5e665aa3e228c2a80a0fd95ad9590429;0x98e730536b9a62bec7456a306a4ea8b0;0x7a4dde758ee2e785d954c2dec2a5a4cb;0x13c5063235829d67c1409c069c791516;0x6adb14acbe8ac891c343ce14ced57e74;0x401daee2c063bc50685c30ae3003eeb9;0xa89eadfb3b221382e97c7ead7ede05b2;0x5b93cd5dedd5d73da4f6aacdaa429611;0xebd0cff2feab1da15a77decfded424a2;0x6654a286aaa4459e29dccba2cbf1c495;0x562d3f2efa1c34a207e5df3fdf616997;0x810bdb5e4021d530993410db10015ad6;0x77f32c06992b041a7a47b72cb7865b4d;0x571c7b77f9fb5a324e69af7baf662cf0;0x4ef0907ad240edbc1018d590d529de96;0x8d846d74540f583f73ab156d1525e037;0xb04302af137eca9cfe8174027496b2b3;0xf30d60a6d6f7c4bf4d8ad460d49c93a3;0x946886797fb4efb12dda6f866f6a1251;0x20ef577160d05e28342e185718e077bd;0x242b84d66cca252dd35b1b841bfca0e2;0xd726e470ba3de1929ed1cfe4cf603341;0x1452197e3c725411fd620f190f6c0de0;0x9e416b46618dc558b2eb896b895cf521;0x05f597fe0ffd1595aef97397731b9238;0xc6816af089b2a016cd4ab36ab317ac99;0xed7694e7f4bcba472fd93d943dc67933;0xc86c54689b91f1fab50e5654563d9cb6;0x9bb4fcb86e70d0cd1c12fafcfa476719;0xbdfdf0dc04b729035d9201f001b54d35;0x84fe4ca04fdcc0a537cd634c631ac8ee;0xc374fd0e864fb58363b3c0fdc00c3ea1;0xca0edcda9d9c2d1927d5b6dcb6331678;0x8a1372385dff91494f8986728630f8c1;0x34bd4e0f5ca20a39c94c174e178c7a5d;0x26490c646ac7f9ce4180fb0cfbf22a2c;0x1096cad930682f141a170cca0c70dabf;0x251ac08f6f2d4bbd9ad76bc06bfbe585;0xe39baa7fe69febab579dd8aad8ec491c;0x63a13578a559500b8725b835b8ea56ad;0x0a29ed3f1e392ae99f31e6ede636e770;0x4fc1d423d1a7832c5994a5d4a52e9bf1;0x8b2236615e18ffd90605f636f637bda6;0xc7b02ea98a55ce8684c6c32ec310e9fe;0x6765e6dfa9432b0e6050bbe6bbf681f2;0x2d51a5027719bdb7973d6da56dc3883b;0xfeb392d5c13e2720ee99a192a1bf6c25;0x45e8391ccf9ea9c5c6a5433943187c81;0xa0d5c8762316e588e49678c878e6680c;0x803a9f0743c6bba0d0b8609f60061fb1;0x00000000000000000000000000000000;0x4a3443ddde5a96b9f76dd643d63509c9;0xee25580cf1560834f48ead58adcfb69a;0x4c9218c8d44d315f82c3351835275458];
   [0xabda7f9375633b22b740a684c22209da;0xbbd9f4a6c11bf5e154a2c52495e1ddd9;0x833c0e0284af03e72236b057a6e7083c;0x0d8c0340edc460d0ca0fa27227d0c38c;0x3addd3eab2bb9f2652194167e0262edd;0x4ad4e4613810b02abef2ab81862a47d4;0xe8f2ca2e8da939988b64c75f0698b8f2;0xebd61647e04085a8bd4ee9415da8dfd6;0x8facf865f38db627fa9e082f092757ac;0xbeb5531d76e3f2b10edcb70678b174b5;0x0fb42a0e1acb09f0ee829666f4f038b4;0x6d86bffed317811fc5062b34161f7e86;0x0ad88db5ad330ea0b4fce44419a091d8;0x29fa84b66b2aedd587d10cd9ecd59dfa;0x175705c0f48fa0b39d11259669b38657;0xb01d8c34f6ce2e51f2f93b6a0451d01d;0xc5781c04cb9d060d446ca3ae8f0d1078;0x4c9c9fb3e2010b4ad2a6f7bd304a899c;0xc33067d6118cbd6d2838ff92396dde30;0xb5712b8f41362901a8874948e9017971;0x74796517a7b5fd4ca43282ce034c5c79;0x946b0bc27020a354bf2795c1cf548e6b;0x1d8f887559bcae1329edc1d27013178f;0x256a72d11c0858155f79b4a14315c26a;0x48eccd2fcf1fd90a9a7f9f95550abcec;0xdacfbd3f652ec13e490c56682c3efccf;0xdd9b33ca25d9af4e37ff105e124eae9b;0xe9ee3f09174fec8899c3dd558e8824ee;0xeacae3607aa650b8afe9f34bd5b843ca;0x732debe2e742933cdac1c4f83d3c0e2d;0x2eae0a432bdd83a5f9224aefd2a5cfae;0xf57d425bd415978ba289068d768baf7d;0x264eaeb871e1e42569539abf1825a54e;0xd017308ac81dcf9efdf0b22c359e6d17;0xc464e923517bd31d56cbb9a4071d8c64;0xf33539890e042cebcedd5ab1c0eb6135;0x7bcd4f19bd7ef4bc4ab014a8f7bc64cd;0x4d806a9478e7de5ac001edb7b85a1580;0x4560ce6f22dbb9da50703de772da7f60;0xa9e256dd826c520293cd92901102f2e2;0x5ea73dc8a176aca915c9a009b4a9a6a7;0xd8f794719221a81e6d81627cff1e07f7;0x7ea1e8a20a86f3ec10ce668a1aeccda1;0xf229ccae94e2f9fbdc7a40bb48fbfd29;0x901b595e5d3e7114f7fefde9aa14bb1b;0x775db97eca5c417c9218acd0587c3b5d;0x532b3e884cb2cc79dfc6027b9379652b;0xe57ec96e606d5948416b652d21487b7e;0x49f0380855f90c1a88d8859fdd1a20f0;0x98fbfda507021694678f2db96094d1fb;0x1327575cd99172f3d5c84dbe0cf3b327;0x4328b5bdf8ca02ba3c2461dbc4bab128;0xdc87c6edbf3f7a5e25580a549a5e3287;0xc740354a3c926f2d60e197ba5c2deb40;0xa01e070142b6e092111b58ca5392041e;0xcc844dd80b47b49dc6ba69f4cd9de684;0x1473d9a999661c83ab3b0b883283e173;0x5237cbafd6541969cd6118711b69f937;0x2fb2ff64b13b56b5eb8550e55ab553b2;0x4758e721d5d4d0fa74fd09f3a1fa8458;0xa6567cd398a75bf27d4f04f6e5f2ca56;0x5fbbc8ef3b9079b9076eba033cb93abb;0xe336b2bcba7ce2282d3f39119728b536;0xb8fd28cfacf249d16288eb3aced1bafd;0xa74a89f402418ee26fe81efc6de2564a;0xc014bbbf7c65015d1e12d18c625db914;0x23220903c619e375332de89df5750c22;0x2ade58df06c351e5b1fb22c7b7e5fade;0x623295f0c9dc88ef2b84bd52e2ef4632;0x7d8534cb676f4fdc26e4489441dcaa85;0x3119ab78856e4496f442bf2971962319;0x30055e5f1f889186e6e5a523f986bf05;0xc1084e98e683d44d0cb5cb86ea4d2508;0x2006d56aabf05f450507c683ae456b06;0x8ac05fde4475b177a0e07a0de477fec0;0xd743be7f88eaa1ee8303f41a0bee3f43;0x3d895d1ff24cf1562cea0751de567c89;0xbfa9a63aec0527a11c7bad0cf0a1e8a9;0xc65cc06da674ba3d72468db0d43d775c;0x72311ec57da4462cc866def2b52c9231;0xdbd34818ffc8142e5bab4c62a42e60d3;0x156f2c8e0380c993b99c1182ba937d6f;0x99e708829de4c384752837b3e8844de7;0x4bc81146a2f6653aac55b18b0e3adbc8;0x34750cc3329643c6ae3ccd0b9cc68a75;0x600abcbe3ed3e1cf0f09894631cfbd0a;0x92237010aa311834d373c9fd79344023;0xac8ef16635945552c9b3e0b2fc525b8e;0x6ea26397befe3d2ff32c052a4d2f19a2;0xa102f226d850358203bc42c0db829802;0x8104274c73a06ac706bb844375c7f304;0x3bc126cd285d4a3640be5b6d6836b2c1;0x19ffdae974a27c536134a9fa155322ff;0xe4623c49fa8b8c5853cc7f27a958e762;0x2c96230ddcd2ea85ddaf7efb01853496;0xbd918f741b0a4e8138f6991823811391;0xb655f7e62cdf95319ead6756b2311e55;0xd333ece3a5f473aecbda9c326eae0a33;0xe746e0209762306865e65139f2688046;0x9bdf21cc6aebaaa451a503a73ba4b6df;0x8c88240c9e640a17ccb4263152173088;0x0470529c2d1ed24048d9682865403570;0x8650a9b9335704b77848c2754bb7a150;0xefa644dbcd5e57e8f597816938e8eaa6;0x323d7711e887f8a6c26891372aa6443d;0x0bc4789237d5dbb0a65bfe4e91b00dc4;0x9eb38677dd13adf40bdb7185d6f41fb3;0x8018d26be946bfd7141c9e49fdd76f18;0x1c937d52c35a7b033b4adbd8f8038b93;0xb10179136c28fb41e05e21608c414c01;0xd4676216e5031ddeb529da0450de5867;0x7ad1ba3e279821ac58170ea27facf8d1;0x5bcb9a73168eabf94fb7d22b59f90fcb;0xa33adb682f5f5ca2273176d408a2633a;0xf9edb43ca337224b7a21bef5d94bf0ed;0x3321823672612db6d0cf8b3da2b6d821;0x68ea184564ef864f9f785916fb4fd7ea;0x9653228c872fca749baaa1d51c747553;0x464412064f3205ea665a13f929ea1844;0x0238294ef70f6920248d3414d320fb38;0xffa5cfee7926992b1675e2c96f2b3ea5;0x9577fee5eac67644ad808fcb47441277;0x647aee2213cd338f47d0e16e548f887a;0x400c69d49523be8a0a0e4fc59f8ad60c;0x41109cf30fc56b9a18a955cf179a4a10;0x164bf0e76e6975a38fb63f9ce1a31a4b;0x0ea8df29802ddce0fc258c6c7ce0a4a8;0xb9e1dde836149cc1702ff13046c126e1;0xfd9de6a08e29f00b32f8d6ddbc0bc59d;0x6fbe96b02418e83fe18b1f20c53f85be;0x9107ac79c7d8a404e559e7e322042707;0xa572a0baf54ee7c24b652ae8bec2ad72;0xcfa091b166ae08adf09047ea96ad81a0;0x56479933fb4acb2985b870597e29cc47;0xbac501815bfd20f14605df2e1df141c5;0x61164999a43534df1dae934cb9df2116;0x18e32fceee44a9437393b3f09d43bee3;0x547fb07d0c45a209a135444dad09377f;0x8bdcaaf9de936467b24760076c6762dc;0x3ead81769fa54d661ac0294f85661bad;0x5ad76f548c687ee95d10c821d1e993d7;0xcebc6496fc48ddbde2375de01ebd1dbc;0xf7456b15231afeab86043299a5ab5445;0xd22f19c43f12a6bed97d8638e6be962f;0x8220fb251e49d6f73091aa5d2ef79420;0xb339505d9b279261c4d315745f61b739;0xb46ddea8dbd0fc11ba2053426111e56d;0xd65f4b58120c74fe91a4ee1083fea35f;0xe10e9bf24d738b0809b20d0544084e0e;0xc22c92f18b6a687d3a9fe598b17d422c;0x5d83e1a1cc9f109923e38e17ef99c183;0xfac96855cede9e7b4c0b90eb827b97c9;0xa46e559d6fa832d259c230e236d2316e;0x1fb7a13baeb3c7330d60f5c6a333ecb7;0x0c90f6677722b5c0d8a8b878afc05f90;0x011cf5279ae6d51012a71a0a88109c1c;0x2d8ad62a46343f95cf0864f18995a88a;0x675e324b7e248fbf71facf700fbfef5e;0xe22a479b209a37383f98231b1f38292a;0x09fc51dcc0dab29082d6ca5a4290f6fc;0x575b6c1461ac1e39971f6a53f639505b;0x111f7e122e9e1bd3f14579aadfd3481f;0xb74902c1b63940218c0a7d5c3a218249;0xdfa31a84d2d6c66e1372244ac16e55a3;0x6ad2310b93e0ef6fbbf56d02286f2cd2;0x933f853730d7cd24c1d4d3f7f124dc3f;0x247687f686ee8d054ddeaeabcb055e76;0x7fbd1d85906026fc02697c8092fc51bd;0x6642c76ce4c25aaf635dd57a87af7342;0xfeb93ac9e3c04c3b04d2f8c3e73ba2b9;0x07548ef540f76e707ef346363e705254;0x447c3b48b83d6cca42d727edfacae37c;0x3fb1745105439876086733450d7687b1;0xf8f1411b39d1f75b6886a4ff515b6cf1;0x06487bd2da11bb606c545c3cb660ce48;0xcacc360ad1560ffdaaee35c87bfd28cc;0xad920441af728042db14fab87442c792;0x2bc2adf89c2584f5a35c38cd3ff566c2;0xaeb6d828c29b3c72ed3ed4a62f72a0b6;0x223efc245cff3665218af2977d65903e;0x39f90f83df52231664336f79bb1649f9;0xdebfefa34830137e01d53e40497ec9bf;0x1eab541c345512231fc7efcc2b2370ab;0xa8fea3fa188a8712816a889a99126efe;0x58ef461a7b6717c9799dfc3502c968ef;0x88f87690b37ad857846d4e19375705f8;0x9ac3d4ebf00d7fb4430219adb3b42ac3;0x69f6ed62fe09535f8ddf431c735f4bf6;0x28e67191f1cc38c5957616d364c501e6;0x65661b05892be69f5577fb64dc9f1466;0xd57b97317fe5c8cea78ec00ed8cec47b;0x7c99c1ecfd899acc3443529ec9cc3699;0xbc8d7a5381ec9b912a518312ab918f8d;0x38e5faa445b4f606769475733306d5e5;0x4fb843da8fe8b77ae48cd9a36b7aeeb8;0xe0126ed5d7955e181b15170fcc18d212;0x27525b9feb0731357bf480b590353952;0x76414c5950ba946c80bfb6dad06ca741;0x78e99370d097488c7c9a3ab6ac8c03e9;0x89e483b7299c0d4796ca5413bf4799e4;0x8d94d12b0482df07de133c3bda07ac94;0xafaa2d0f587de962ff99ceaca7623caa;0x9faf735047f578e4197c6b8f5ee483af;0x846880f7c4586d975cc5f66198975a68;0xe65a15070d84e57877414b337a781c5a;0xf10d10c7f90b45cbea506ea513cb9a0d;0x632e60d7533a5dff3923a7586affda2e;0x511317c6bbbda559fb4b366f40599e13;0xc8f41f44265966dd8e6301dca8ddd3f4;0x0324dc696de9bc30362a2e1e5b306724;0xed9e6d953a513ec8d11ab57debc8119e;0x7009378b8aab2f0cecebeae6660c6909;0x3c95a83868aa24463e4d1d5b5646e095;0x8eb00d42696b6337e83912258137cbb0;0xd9eb615608c77d0e7f267876770e9beb;0x10038b35b478cec3e3e263a057c3d403;0x1adb0680194bc063571e87e44e6345db;0x9d975a1eb0fa11c43df15f9b8dc47897;0xeebab1fc57b882f8e7309b63b0f876ba;0xcbd0c32d4bb0daedb8492fc2f3edb4d0;0x974fd7ab1dc91f64890dbbdf9464e94f;0xc9e8ea63bcbfb3cd9cc41bd620cd4fe8;0x79f566574a719d9c6e3d20bc249c9ff5;0xb225a57a01c14771d6740f7ed7712b25;0x3569f9e4a87096d6bc9bd70114d61669;0x6c9a4ad949f1540fd7a1313e9e0fe29a;0x9c8baf392a1cc4d42f56459105d4e48b;0x1bc7f3a783ad157345b99deec673d9c7;0x056ca7bbb7f807505a7e7222ed50a96c;0x500fe2e1215b7049e9ec2c65c849020f;0xf011e5e063ed90dbf8f774af9bdb0611;0xd10bc5ad52fb1a8eef57a826bd8ef10b;0x123ba27b4377a7e3c76f57b484e32f3b;0x874c5c9ea9b1d1a76aefd87fc3a73d4c;0x08e0a4fb5a3c67809071d050ca806ae0;0x59f3b33de181c2d96b3ae63f8ad9f4f3;0xfc81138714cf251b205fccd7341b5981;0x211a204d31168a5517a0dc892655f71a;0x857475d05ebeb8874e62ec6b1087c674;0x5563455a96a37719b3925e472519ab63;0x4ea4b6fd150e626af62bc3a9e36a72a4;0xec8298b2a0b7ebd8c3bdaf7763d88d82;0xfbd59d7254384b6b5eac8ae10a6b0bd5;0x364d258dc5992ae68ab1f91f4fe6714d;0x756590303d53285cb69598c48b5cc065;0x3751d0aa5f7ffff69816e315c7f6ed51;0x5c9f14865679c5893144941d67895d9f;0xf6599e32b9fc2bbb94a328932dbbc859;0xf461b77c4ef3429bb02e1c87fe9b3361;0xcd98b8ff91a1618dd41d73fe458d7a98;0x6bcec42c09063a7fa9527708a07fb0ce;0xa2262e4fb5b989b235966cde80b2ff26;0x00000000000000000000000000000000;0xaac68ab4ef85ee32a5e7bc8e4a3295c6;0x7115c2ac104dfa1cfe4cf0ecee1cf515;0x4234409a622cd7aa2e837bd14caa2d34];
   [0x4752d9d26981424a4ee7535da930477c;0xe9db315c2edf1297343f83150b98e91c;0x8f26be4a2512cabc87f858e97ff78f8c;0x4e4aa1542a0539e18db651d33b954e2e;0x03459277dab6d2782ddcc1f5f17a039c;0xcf7c4f5bccefa12e8891b4ce19a4cf7f;0x0cd70d1fee9dce23b4f68252422b0c35;0xba33ffafb63ac1b8650195be64d5ba3f;0x1230f0cf86cbf69545a204dfe78912a4;0xf034e44fc6f503f984e5bae26159f002;0x2bf2bc35fb7e33b213ad4bdabe802b22;0x2cfa94f67b021a6a5223f4a071e32cad;0x321d6926135422dca377722dd441323c;0x1b288849c54f8d3e86f30651752c1bf6;0xd2de20fc7e0f4be05419f3b64d7cd272;0x089ab7abb4573583d8a4fcdd7c320826;0xdd4cbf944a2457bbcd33b011fe2ddddb;0x607768f87c62bfdbe9bc9ad5559b606b;0x72479837faa9494eac1e9e0ab21272cf;0x117562b85c7d24ed687ec52a16f31138;0x068ae7ee77af67f05a7b412921f406fb;0x5df89eb65b1d815cd3e1ab5f328b5dfe;0xe0c349da6d5b693cf76e819b993de04e;0x863ec6cc6696b11744a95a67ed5286de;0xaac4523a1d94ab7d168aaec79cb1aa73;0x5837eb2ff60434d4a4462b83e2055899;0x2460235dcf552fe98a87087d0dd1248b;0xdf8be2ce6741cbebfb1a8fb7e1c0df33;0x696f107e3fe6c4702aed985bc73e6939;0x7add2f9c4efe7ccd74ba62d7ce207ae9;0x677f403bfc1e9603a83225af9af867e4;0xec1444c583c6a71f439803c9db16ec7b;0x30da347c3e31be8c955e4d8bcbac30d4;0x6a2a8209e5501608073159ae36446aa5;0x0e105045c3f8527382dfbdf45dc60edd;0x431f6366334bb9ea22b52dd29729436f;0x2d785bdb8cd1544249d60af39f742dd9;0xb32b8729f5beba13a6509730f670b36d;0xe48ef36e3791929c9b3cff14a724e45d;0x22eac4b3b8fa4819d0fc49542c252270;0xab469d17ea47e5550d7f50947226ab07;0x3d8ff64e277f3e873a5d318a67103d95;0x34978ec864fb452cf90c3304f5b534c7;0x90438cb7ba97bc226d59203734c29069;0x974ba4743aeb95fa2cd79f4dfba197e6;0xb06e155e2f08686b8b8c56c5070ab0f1;0xe50c3c43c042dcb480c9014749b3e529;0x429dac4bc498f7c23940d38179be421b;0x7998bdeb9448aeb55966a3223f5a7975;0xc0eed033f8c4bd7511bbf769aaf5c0d6;0x186d1a3e1ff95f46ab2fc7a48456186a;0x4b85d4cd871c8c69fa11d10feb1b4b49;0xf73ccc8c46892a21c56b0598ae3af78d;0xb8f4a2f59b5f5de85328aa187b38b8d7;0xa6135f25f309655ea27c2c95de9aa646;0x59b5240201d77afcbfb3d5d00c9259ed;0x643ad24c26a8447b85eee45a6b826478;0x3650d392499ed97ccf250ca2ea58362f;0xb423afea75c293cbe7de284a3913b4e2;0x8136ee0fe6ea98cf0527e51d22318151;0x0918788643847babc351028e92a50952;0x781a72c6639be09d42935d71d1cd7801;0xed968be87415e937586dfd9a3581ed0f;0x5f3fc3ec76781d0ce5c894f92d665f16;0xda449757ca587e638cbd0f6b314eda54;0xc4a36a87a20e46d57de989e694ecc4c5;0x2935e16fd61bafe22584747ca16d29ca;0xadcc7af99de882a5570411bd53d2adfc;0x070828c3807c29d8418ebf7acf63078f;0x82737c783c5c4ab728fb24e8d34b82cd;0xe2041480403ef56cc147be3d86d0e2a6;0x3158fb51c9e2f0a48eabb3d8253b31a0;0x17ff85562bd2431d32058403370717c3;0x9fd113df8ebca079f473639087939fc0;0x0bdf25dc6ee1e7fbf5783d288d480bba;0x167d4a7bdc010d3529f07a50d99016b7;0x7f125a05e3e7c945031de20b1eae7f8e;0x23680b9e4f290631cb09b707c2b22304;0x6ba84d24128358201cc4a7fdd8d36bd1;0xa981c04dc72279053b566f326dcba9ef;0x8b6b04fe7fd8311cebaa266641ee8b9f;0xb7663d9daf7441b3ca02e9bfc869b77e;0x13b23fe27118b8bd5e57fa8c091e13d0;0x1c20a08a4533a4e6c77db92bba4f1c79;0xfbebc193a814e402719d87caec11fbb8;0x62b035a25107238bdf95a5734a766283;0xf2f3b915eb909fa9b2cc85447eb4f2ea;0x3b0511a050d05977602670a346e43b6e;0x9a1e664623a515f183d4e34c571d9aa7;0x754fb0f47ad56096ed9021707d717540;0xea9ea32bf469c0ef19e342e0fae2ea80;0xd0197da6536ad7b06230cc105291d09a;0x2a7073180cad7d9a0858b58950172a56;0x91c1439a4d44f20a76acde64da55911d;0x02c75d5a2d659c5036293fa61fed02e8;0x46d016ff9e520c625512ad0e47a74608;0xa791900804da2b76b989d2c6300da732;0xdcce70b9bdf71993d6c64e4210badcaf;0x2725b12a15e3fd91a75bc988fcab2717;0x760a2283a063b2eec04ce0858c0b76dc;0xa4d4027fde6cf90e94551333c177a4ae;0xcab33ac261f614a6ff363412c92aca18;0x96c96b59cd38dbd23722611e15369692;0x7080c56dd7ccd51e9a37a1acadff7027;0x54e0e6301899faf710b0a9d1a02e54ac;0xe14186f79a882714ec9b7fc877aae13a;0x6fe5f7904849a3807096d972e6ca6fc2;0x39c24cfa7db5c527560f4f0559093986;0x339fa60be4876cf4b8828c7e3ad63348;0xdbc6587a3d8b304b9748f138dfd9db20;0xa099b8cb84a602aef8076dbcff6ea0bd;0xfe24b40a050d518a063a07163c9ffedf;0xb2a94804026df43bbda5696318e7b219;0x10f7ad95abae6ac5738b3b79f864104c;0x71020a40201f9b3681c25fff43687153;0x87bc09e19145ff3f5f5ca43403c587aa;0x351541e593280b04e2f9cd571b2235b3;0x384083d78a668b0f4dfab156b79e38f2;0x526a01de6f369d074acbe8f881da5257;0x65b81d61d17b0a539e1b1a098515650c;0xde092de3909285c3e0ef71e40f57de47;0x8ea47167d2c184949c0da6ba91608ef8;0xa8030f6030f1372d20a39161835ca89b;0xfd61267ddfbb83f22be6c6e3cde5fd43;0x2e3dc9ac5667863a640acb066e0e2e45;0x0182cf2df7d34e281bf5fe53ee970174;0xf8ae53e472a2367a5c41463f1d6bf824;0x8c632c3dffa418c4aa24991c8e8d8c10;0xbbb1308241e98f907ef46bed8a42bb4b;0x49428997aa791039cc38eea9f4f649a1;0x44174ba5b3379032633b92a8584a44e0;0xbffc8a361b23743012a61562b45bbf58;0xef51d6b2597075676e44c23c2a6cefe7;0xfce3e9502868cdda301338b02372fc37;0x3a87de8da703175f7bd38ef0a8733a1a;0xb1ecda73d8db26439079a896e99db185;0xf92c9cc98571785247b4b86cf3fcf950;0x995bf431f913c789ae0822b9a667993b;0xd883ca0de73de233ba9430cd2ea3d8bc;0xc9f6a8b5bb40c6ded2eaf5e73850c984;0x61f5a7d58bb1f1f3f2496486bb0c611f;0x3c0d3963d0ac70af21a8cfd989873ce1;0x89ac59a452bdad4cdd8319c05e038977;0x0f929f68342b1c5b992a43a7b3510fa9;0x5c7a519baccecf74c814550cdc1c5c8a;0xbe7e451becf03a180953eb315accbe2c;0xc2298d69d5a121252792c8cfb518c23e;0xc521a5aa55dd08fd661c77b57a7bc5b1;0x882e9689a56ee364c676e793b0948803;0xa11b77e673754c86e3f293ef11f9a1c9;0x1da26fa7b2e0eacedc88477854d81d0d;0xc7e6f8f078b894ad503548136596c759;0x6ca065e792ff71f85d4a188717b06c5e;0x857b54bbbc20636f69759b921c288542;0x9d164e85a3d93c29c25a5c36987e9d28;0xd35cefd189dc05c84fec0de5a3ebd306;0xd19bb28ba4b9999879c53243bc06d1ee;0x1ee7fdd0685638b6f154868da5a21e91;0x3eca6439fdc9ecff1781f07f966a3e09;0x84f99b964bf32d47728065c1f2bf8436;0x2fbf0681a1b4c8127fff355580992f31;0x7dd5075fce8255153534ddad01437d66;0x74cd7fd98d062ebef665df2393e67434;0x41d83e3c1e2e25ba149c127488c44187;0x50ad5c84425301577ce2d75e9e3750bf;0x21af56c4624c9a61fd2088a1dd5f21ec;0x5562291def4ab4df0b4557824eb955d8;0xe7cb6119ed2740e4b6e03ee1565ee7c1;0xcdbb1201e18a3d7ebeb88b680649cd97;0x0d55c232194e800baf037c01acbc0d41;0x7c57c87239511b3d2ec123feefd47c12;0x37d21cbfbe4d9754d4d0f2f104cf375b;0x1aaa4764329cc3169d06f8029bbb1a82;0xa25ee591a9c39efece2e521ae083a255;0xaf0b27a3b08d1ef5612d2e1b4c3faf14;0xf6be03a1b15a6409de9efbcb40adf6f9;0xe859fe71d90c5cbf2fca7d46e50fe868;0x7e9095281434876d18e81c58f0397efa;0x5ebd0cc181ab5324fe3d6aaac3f15e62;0xfa690ebe5fc7aa2a6a6879990286facc;0xb5a160c78211dde3fc2bd619d784b596;0x9284d1ed97f220725b701f912b2f9281;0x5627bb6a35fc66a726999677bfc35644;0xf1b62b6231264dd19f1044b18fcef176;0x044dbab45acafba06c527e8f3e190413;0x6e6738bdbf9aeda86b632721085d6eb6;0xa556cd5229bfb7268fa0ed602fe0a5da;0xe649ae341af40eccad15c0b2b8c9e6b5;0xc87467984c9388f6c91f0bb4d6c7c8f0;0x7b5fe0b1b92d32e56f4f9c8420b77b9d;0x73c5571a0d7a0766b7eb60595c8573bb;0x512f93a9b5804f7f6717290d70a051cb;0x958cf92e178e09aa1afea0ebe44c950e;0x66fd8f160bcdd82bb3c7dbfc746f6690;0xd6939a4824c5b040384b8d397365d661;0x5b7279582cb2e6ac899aea76137f5b05;0xe386dbadb7edbb44dab2406e6847e3d2;0x6332fa8fa6d46da3c4605b20a4e163f7;0x9b9ca96bd4765bd998211d1fb98a9bd3;0xbd3bd76c3646e860248f2ac4abb6bdb0;0x7788edae57b0fcc6dbb91ed6629c77a8;0x8de1e310087756ecb1d1674f601a8d64;0xbcb91841c195a6483f7ad4974521bcc4;0xf37176381c43d181a9397b179023f39e;0xf4795efb9c3ff859e8b7c46d5f40f411;0x26a77e07e230b3b9bcae37db123c2663;0xd454c71209a02c100e62b29f6c88d489;0x80b421221139d6e71ed21b4ecca68025;0x93061ec060216e5a4085e1c2c5b893f5;0xb6e4f2b058a70f9bd1f717ec26feb60a;0x1538d80c06b7df4d042cbba528ea152b;0xcc39dd2c16597356a54d753be8decce3;0xac4eb5d46a3bcc8d4cf1efeebd45ac88;0xc16c1f1e0f17f35d0a4e093a4462c1a2;0xeed3199faea33b4f75b13c6fc4fbee93;0xae89e88e475e50dd7ad8d048a2a8ae60;0x9c9481a8540a7201d9afa26576e99c5c;0xd901052010eeac1ba161ce9ec034d9c8;0xa3dc2abc5e10d0d6d5dbac490e14a321;0x25e2ec70388661c19172f62ee34625ff;0xeb1c6c0603ba8ec70216bcb31475ebf4;0x405af111e9fd6b920f69ec27665340f3;0x48c046ba5daa5e11d7cd10fa1a6148d5;0x6d22aaca652c3fd046bfe6d4f9276d2a;0x28b72e4221c8e1ca3e718a2f4ffa28be;0xffa67b27f2de1fa21dcff945d208ffab;0x0a5deaf19932a9d3ee8dc37b63df0ace;0x4fc86e79ddd677c99643af80d5024f5a;0x19efd513e82a116eb0da39f76ac1191e;0x53e8cef398e5d32f513e16ab6f4d5323;0xf5fb91d66becb671f3423a3eb1d7f565;0xb9766dd86c8c13c048dd544b95afb9a3;0xcb31f5ef96255a8ee4c3ca4127bdcb6c;0x4595848844e4de1a78ce6cfbb6dd4594;0x57a57447c22f288f3d6c682451545730;0xd7115565d316fe6823be736a9df2d715;0x68eddf53c8358a583118660829a9684d;0x4c8dfc0e0760a5b1bb9f6e7524784cc6;0x202d99e9959fd449e6d576f233c82098;0x4a071be070cfc241e1e42f5c058c4a3d;0x05cf7599ad19b58877a780dcd08e0567;0xc66437dd8f6bda854bc0b6408b01c62d;0x14ba1721f16491651fd945f6c67d145f;0x9e53dcf2796fee51ef869dc369049eb4;0xd5d6083ffe73623815974ccc821fd5fd;0x4d0f3323f0b3eb99a06a9026caef4db2;0xcefe80763b3cef0693644a9df733ce0b;0x5af0b675db61a884926f1425fde85a71;0x3f48ab140a1aa2d70c740e2c78fd3f7d;0x8ae9cbd3880b7f34f05fd835af798aeb;0x83f1b355cb8f049f330edabb3ddc83b9;0xc3ab424422726f0d3c67369c5b8fc34a;0x00000000000000000000000000000000;0x940e3603e05d4782010b5eb80adb947a;0x1f6532fd9f85769eeaa178de4b351fe5;0x98d93b1c0ec089a1b5fddcea48f0984f];
   [0xcc0e86c24fba593be3ef79825311f0cd;0x039694956c2ab6f59cbae7378391bd5b;0x17b1aba6f911d203c38ec9905892ad69;0xa58244279665bf60da6e5928516884be;0xd434ace0a929a09f89764df9c1135150;0xfc7ad286405f68b0371e1174b4157134;0xd6d0f506e1a4c539611bf762824c8783;0x762bce5dc3bf6385dc784413955407d0;0xd2db4709717d0fb672c1409704f2e8e6;0x2058d9780a079ff2981ff1a4bab9feae;0x6591d7f4aa777b090c2c3a764b78c5dc;0x425428165c8398811b539b10f4eee94c;0x465f9a19cc5a520e08892ce572508629;0xbb5785eca8a2e9ed4b40603d068b9c95;0x2c45cc6979af02a0adb2eb78f3b84f01;0x2521a604be79862eff121bfdfcc9fa43;0x2ea1958f3122670645df51e3b0e799d2;0x7f4fa4300469e70b8ed8b4969a25b292;0xad94e3397514e8bdfc19f4019ed75a74;0x06efebe9d854af29fbb70d6ec5e1b9b6;0x6b689b03915283fdd1ec9a314126a2a0;0x3bf467cf80bed0a36e3c22e8ab2ae268;0x6a1a5670b5f550aea53bc79d81e8c928;0x7e3d694320ce3458fa0fe93a5aebd91a;0x3c6941557c4dacd9e15c722aae053056;0x84a8502cb8c5f3c136a6f5202b1f1198;0x67758e12e2fa1eafe44180ed0827130f;0xb6385d8effada7ec0a3a274d8f4446b2;0x16c366d5ddb60150b759943c985cc6e1;0x88b5453dcb6d6e93030beffc621ea037;0x588a5bd2f29d048399a715f025b39e02;0xbccaa37654519597c42030ff03a44eab;0xdec6521802d592e4476c5a4b4df35949;0xc2f7ca35749fa1cf3e2fd9c5594f97b1;0x4e493d072f2b05d32efe81ccbdef58e3;0x3fffd5c010671a2c7de6951d2d948d0d;0x0ef94cf73b25f8f4ddc0a0470a5e677c;0x1fa70cb81a6085dee5f964b9972d73a3;0x99eb0572ea2813b93b322b02ff6db4e8;0x0c1d151173a89d5235ad1adc4901b1af;0x70c425b41bebccac27cf497d50b5be66;0x44bbc3ff84d737a8e0e4967e310f50fa;0x2d37011a5d08d1f3d965b6d433762489;0x5f177d480e6e78f916c74532209c4c3c;0x78d282aaf89a9b7101b8e4549f0a60ac;0xcb93a058b34925416c8f2940563e22f3;0xd54661938d8e73ccfda1105501dd3ad8;0x7352b12177c17a59bb75ae4ad324033d;0x5c81e9dd6244ce0c8a7da205a30df167;0xfe9e8b6008d20d16df73abeff74aa7e7;0x6f63290c018b4972c2362dc4c798cdc5;0x1ade73c4ae1e9c0282f48ee0d15d774e;0x079d269afcf37c7a8f6050c2052fd23e;0xeeb2065c0d30a36f939d32bdaaf7d8b0;0xeab9b4539de969e0804785482c49b7d5;0xc80534cddf6393b4f035ce77d5af9fa8;0x8cbef7325bb4a41c10d15809e4a0cf52;0xb5aec91b938711199680c07a0cd5fbe9;0x3862f35aec946656f286c5df28bb5f33;0x59f896a1d63ad7d0ed70485ce57df58a;0x698cc2e5d9dfe65b398120aa02797473;0x102c8d3c05e2ae794cee99525dbd7f57;0xf067c79733f7f5e202b30ba8fd14c09b;0xa36dafce4e31104921d9544694893d08;0x09646a6dc7d6848e52a0f0850f71b542;0x0d6fd862570f4e01417a477089cfda27;0xfd081ff564f8bbe343c94cd874db1abc;0x1bacbeb78ab94f51f623d34c11931cc6;0x27c5ffe2f6f4e388177fa166bf962c90;0x8dcc3a417f13774f640605a5246ea4da;0xf2839e717b7a9044eadeb133be4b1648;0x926b36f96573f29181ff611cb343d779;0x6d8770ea49062cd42a5b975f84c71b16;0x5df324ae46e31d5ffeaaffa963c39aef;0xf1150ae4175026b1766456043ddaab13;0x212a140b2ea04ca1ecc8ac087a779526;0x37e972def3164df15b913834e22b53c7;0x40b071f0140efd27f33e218bb7b13f9f;0x8e5aaed41339c1baf8bce292a7ff1981;0xe85dedb5d5640c46682a3fd36f166106;0xe440f8a4a6cc91145d87250f2617d0a9;0xec565fba45bdc6c97bf08826e9a80e63;0x9e7623e816db6fc3b4527bc0fa4266d6;0x9c927a0e5e560a655c3fc15bb91db005;0xd14dd39c1d57b943ee7ba7a0876355bd;0xe7d66c31cae627e1c13dc238a5866df2;0xb8c11179c4885f18d7fa870a851a21ce;0x2fd358fc1585b45531080c4f7029f25a;0xe2af134d7e983e3da6302861e3f6691f;0x8a511cdb83e00b35eb665567214176e4;0xd7a23875c503166a15ccaace4282ec0b;0xb4dc0468b720c24ae2579dd6cc1b9061;0x293cb315cdd11b7ccabf0121b5c84bec;0x13ba19a969c8188cd0547e65de2cc20c;0x9899c801ce8fc0ea4fe576ae3fa3df60;0x80a3e223281c394e257c42d5ada17efd;0xa614d0b2fa4f099546d4be1fd2f939e5;0x620cf16e56840773834c6ab44e5717e2;0xb34122f24bd3be306d37cd14c934425f;0x5e65b03b2ac9abaa6210189ee05227b4;0x72207c525366a90acfa2f3e613ea68b5;0x4326e56578244bd26f84c6bc342082c4;0x347fe64b9f3cfb04c72bdf0361baee9c;0x350d2b38bb9b2857b3fc82afa1748514;0x5278a52a596136f857bd0242a953961b;0x26b73291d25330db63a8fcca7f584718;0x7dabfdd64ce482ad66b50e0dd97a6441;0xb74a90fddb0a74bf7eed7ae14f8a2d3a;0x0af2fef8abfc327bce1a17b28ce00819;0x45c90e8ca070e4fb9433cbd2f1c13b72;0x81d12f500cbbea1d51ab1f796d6f1575;0x6e11e47f252c9a21b6e170680756a64d;0x530a68597dc6e5ab236a5fee699dfd93;0x4a428f08bff2cf5c3d2436393b513786;0x79a04fd9dc3d4822756fb9f85fc40b24;0x32900da24768542d3c9cd26da45b572a;0x619a65fb3aaeb1861ff68d83cdc6aab9;0xfbe7f41cbcac14cab87e41b6b13aa30a;0x39103e29c833b50586519873e87534bb;0xc01393d33c12c469d642635e1a104162;0xfa95396f980bc799cca91c1a71f4c882;0x5b1ccf479eb7b276051df2c7a6222359;0xa4f08954b2c26c33aeb9048491a6ef36;0xba25489f8c053abe3f973d91c645f71d;0xdacde017920c586b54b6edbecb4d362c;0x4cad64e167a66075c6933b57feb08e30;0x05797f7cb47e19dc670dea59467004ed;0xc38507465038729c4af884699981fc39;0x3a86aabca41903f01aeb7f446be489e0;0x8247bbc560915ce8cd11f84eeefea82e;0x183a2a22e693f9a46a99347b9202a19d;0xc977f9befbc440e784e293db1561f420;0x68fe0f96fd7835084d567d06c2b71ffb;0xf6882c7eeba35acbf90406c638f5792d;0x637e3c1d7223d420f79b37188e997c6a;0x873ec4b9d4ef4534aa1c1217a88eacc3;0x49d41b9dd3d879a9a19ed10eb8c08add;0x369bbfadd7b19ea22f46659822e5384f;0x91fda26c095944641d45862b30d26a22;0x97124985d10deb4de6f28b45f533d394;0x33e2c0d163cf877e484b8fc164953ca2;0x0816a71ee37157dd2677ad29cfbfdeca;0x7cd930a5684351fe126253a119b40fc9;0x02e459e6488d65a6e86dba9b435fd6d3;0x7759032ee718b0d6a8af19bf559a6c58;0x85da9d5f9c6220924271a88cebd17a10;0x66074361c65dcdfc9096dd41c8e97887;0x41c2bc8330a92e7487e97c27777f5417;0x307454440fe5318bd4f168f6e70481f9;0xcd7c4bb16b1d8a689738242e93df9b45;0xd03f1eef39f06a109aacfa0c47ad3e35;0xd95b7482fe26ee9ec80c0a8948dc8b77;0xa99f5136e5cd2232efc343f418693511;0xaa09c5a389e794c77379a4c39bf8884a;0xc56aecaf886cddb5b14f89075c60458f;0x60e8a8881e0962d56b21d02f0d08c131;0xf8716089d086a23f24c4a68132ab1e51;0x040bb20f90d9ca8f13dab7f586be6f65;0x908f6f1f2dfe97376992db87f01c01aa;0xe6a4a142ee41f4b2b5ea9f946548067a;0x966084f6f5aa381e9225d6e935fdb81c;0xaf70badf3d998d1b14744e9add888ca7;0xc6fc783ae4466b402df56e30dff1f8d4;0xa7661dc1dee8dac63203e3b31237526d;0xa189f62806bc75efc9b4eeddd7d6ebdb;0xd829b9f1da813dcdbcdb57258812e0ff;0x1ed5c1cb3ec7568d912e391557e3182b;0x4ddfa9924301b326b24466fb3e7ee5b8;0x64e31a878ed0a85a78fb67da8bb6ae54;0x9a7d91e78602a54ca788cc357cfc09b3;0xe3ddde3e5a3fed6ed2e775cd23380297;0xf903adfaf421716c5013fb2df26575d9;0xf7fae10dcf0489988dd35b6af83b12a5;0x1948e751c2342af71e4e69d752ccca15;0x833576b644368fbbb9c6a5e22e30c3a6;0x4b30427b9b551c0f49f36b95fb9f5c0e;0x4f3bf0740b8cd6805a29dc607d21336b;0x7b44163f94b02d849d0203631c9bddf7;0xefc0cb2f2997703ce74a6f116a39b338;0x9de0b77d7af1d93628e89cf779d3db8d;0x74cf97bb8b3206233415fe88d60bd103;0xc78eb549c0e1b8135922339c1f3f935c;0xcae16d2b97eef612185874ec96f0497b;0x6cf5bd996da1ff875e8ccaf34409709e;0xf3f153025fdd43179e09ec9f7e857dc0;0x310699372b42e2d8a026355a27caea71;0x3e8d18b334c0c97f0931c8b1ed5ae685;0x0172cd7324a7d35374d75dacc0ce6b88;0xdbbf2d64b6ab8b382061b0120b835da4;0xc41821dcaccb0ee6c598d4ab9cae2e07;0xe13987d812b288c83a8acf566067d444;0xed2492c9611a159a0f27d58a296665eb;0xe04b4aab36155b9b4e5d92faa0a9bfcc;0x14273f33953b64f65f342ea7db031032;0xdfb49f6b267241b733bb07e78d3d32c1;0x509cfccc11ec535ebfd0b8d9ea0c40c8;0xbe2efa901cdcf0312c4d8a6440fb9878;0xab7b08d0ad40479407aef96f5b36e3c2;0xae0277ac193e5e4860a313361d46e72f;0x51ee31bf354b800dcb07e5752ac22b40;0x12c8d4da4d6fcbdfa48323c91ee2a984;0x8f2863a7379e12e98c6bbf3e67317209;0x1d43555e52ede0780d94de22d472a570;0xf46c7598a32e3f6d1169bc5d7baaaffe;0xd3a98a7a55dadce506161d3bc43c836e;0xffec46132c75de45aba4f6433784cc6f;0x472d576ae8fd815d7c5e7149b29eeda1;0x1555f240b19cb7a52be3730b1bcd7bba;0x8b23d1a8a747d8669fb108cbe18f1d6c;0xa0fb3b5b221ba6bcbd63b37117188053;0xf51eb8eb8789ec3e65bee1f1bb64c476;0x284e7e66e976c82fbe685c8d75062064;0x5701da56ed1f2f2430b0e81bef2392f6;0xb233ef816f746d6319e090b809fa29d7;0x24536b779ade557d8bc546513c0791cb;0xcf9812572390efce7f559eb5d0804d96;0x89c7884eefcabdc077dcb250a2d0cbbf;0xdd50c68d6eff2411dbd6bd7cce62e412;0x55e583b0a5924a82d8dd5280ac7c4425;0x2bd8eaf3855c7eda22d2bbbaf6979d3f;0x9b0f5c94a2a5761fd35f9199bc32623b;0xebcb7920b94ebab3f490d8e4ec87dc5d;0xceeadf2407373c9d0b82c319104e261e;0xe53235d7826b4247295078a3e6d9bb21;0xb1a57b14035edb96855a778f8a6b948c;0x22bc809e428afa5470724b3ff9e6287d;0xbdb86e0570f646c4b0f76d53c36a2523;0xe92f20c6f1c3df151cfd627fafd80a8e;0x23ce4ded662d290704a51693392843f5;0x75bd5ac8af95d57040c2a32416c5ba8b;0x9f04ee9b327cbc90c085266c3a8c0d5e;0xa21f62bd6a96c31a550e09ea54475680;0x0f8b81841f822ba7a917fdebca900cf4;0x54974ec3813599d1ac0a0f2c6cb22fad;0x864c09caf0489667decb4fbb6840c74b;0x9319fb8a41d421c2f5283cb0738dbcf1;0x5a6e0234ba10612571caaf6b66ec48d1;0x3d1b8c2658ea7f8a958b2f866ecb5bde;0x9484dd10bd275db87a486c7276a26ecf;0x56731725c9b8fc774467b5b72fedf97e;0xbf5c37e3387b2362589ad7c88035f3f0;0x95f6106399808eeb0e9f31deb66c0547;0xb9b3dc0ae02f8c4ba32ddaa645d44a46;0x115e404f21457d2a3839c4fe9d7314df;0x0b80338b8f5be128bacd4a1e4c2e6391;0x71b6e8c73f4c1fff531814d1907bd5ee;0xb0d7b66727f908c5f18d2a234aa5ff04;0x1c31982d764a332b7943838e14bccef8;0xdc220bfe4a58f742af01e0d00eac8f9a;0xa8ed9c45c16af1619b141e58d8a75e99;0xc1615ea018b5173aa2953ef2dade2aea;0x2aaa2780a1fbad895605e6163659f6b7;0x00000000000000000000000000000000;0xace62e4a51b33bee88cea9ad5e1931fc;0x48a6d6eef77faafad5498ca2780ee155;0x7a36db4cb017fed7e9d55ecfdc55b67f]].

(** gost_grasshopper_precompiled.c:24654-36975 *)
Definition grasshopper_l_dec128 : list (list N) :=
  [[0x00000000000000000000000000000000;0x019484dd10bd275db87a486c7276a26e;0x02ebcb7920b94ebab3f490d8e4ec87dc;0x037f4fa4300469e70b8ed8b4969a25b2;0x041555f240b19cb7a52be3730b1bcd7b;0x0581d12f500cbbea1d51ab1f796d6f15;0x06fe9e8b6008d20d16df73abeff74aa7;0x076a1a5670b5f550aea53bc79d81e8c9;0x082aaa2780a1fbad895605e6163659f6;0x09be2efa901cdcf0312c4d8a6440fb98;0x0ac1615ea018b5173aa2953ef2dade2a;0x0b55e583b0a5924a82d8dd5280ac7c44;0x0c3fffd5c010671a2c7de6951d2d948d;0x0dab7b08d0ad40479407aef96f5b36e3;0x0ed434ace0a929a09f89764df9c11351;0x0f40b071f0140efd27f33e218bb7b13f;0x1054974ec3813599d1ac0a0f2c6cb22f;0x11c01393d33c12c469d642635e1a1041;0x12bf5c37e3387b2362589ad7c88035f3;0x132bd8eaf3855c7eda22d2bbbaf6979d;0x1441c2bc8330a92e7487e97c27777f54;0x15d54661938d8e73ccfda1105501dd3a;0x16aa09c5a389e794c77379a4c39bf888;0x173e8d18b334c0c97f0931c8b1ed5ae6;0x187e3d694320ce3458fa0fe93a5aebd9;0x19eab9b4539de969e0804785482c49b7;0x1a95f6106399808eeb0e9f31deb66c05;0x1b0172cd7324a7d35374d75dacc0ce6b;0x1c6b689b03915283fdd1ec9a314126a2;0x1dffec46132c75de45aba4f6433784cc;0x1e80a3e223281c394e257c42d5ada17e;0x1f14273f33953b64f65f342ea7db0310;0x20a8ed9c45c16af1619b141e58d8a75e;0x213c6941557c4dacd9e15c722aae0530;0x224326e56578244bd26f84c6bc342082;0x23d7a23875c503166a15ccaace4282ec;0x24bdb86e0570f646c4b0f76d53c36a25;0x25293cb315cdd11b7ccabf0121b5c84b;0x2656731725c9b8fc774467b5b72fedf9;0x27c2f7ca35749fa1cf3e2fd9c5594f97;0x288247bbc560915ce8cd11f84eeefea8;0x2916c366d5ddb60150b759943c985cc6;0x2a698cc2e5d9dfe65b398120aa027974;0x2bfd081ff564f8bbe343c94cd874db1a;0x2c97124985d10deb4de6f28b45f533d3;0x2d039694956c2ab6f59cbae7378391bd;0x2e7cd930a5684351fe126253a119b40f;0x2fe85dedb5d5640c46682a3fd36f1661;0x30fc7ad286405f68b0371e1174b41571;0x3168fe0f96fd7835084d567d06c2b71f;0x3217b1aba6f911d203c38ec9905892ad;0x33833576b644368fbbb9c6a5e22e30c3;0x34e92f20c6f1c3df151cfd627fafd80a;0x357dabfdd64ce482ad66b50e0dd97a64;0x3602e459e6488d65a6e86dba9b435fd6;0x37966084f6f5aa381e9225d6e935fdb8;0x38d6d0f506e1a4c539611bf762824c87;0x39425428165c8398811b539b10f4eee9;0x3a3d1b8c2658ea7f8a958b2f866ecb5b;0x3ba99f5136e5cd2232efc343f4186935;0x3cc38507465038729c4af884699981fc;0x3d5701da56ed1f2f2430b0e81bef2392;0x3e284e7e66e976c82fbe685c8d750620;0x3fbccaa37654519597c42030ff03a44e;0x409319fb8a41d421c2f5283cb0738dbc;0x41079d269afcf37c7a8f6050c2052fd2;0x4278d282aaf89a9b7101b8e4549f0a60;0x43ec565fba45bdc6c97bf08826e9a80e;0x44864c09caf0489667decb4fbb6840c7;0x4512c8d4da4d6fcbdfa48323c91ee2a9;0x466d8770ea49062cd42a5b975f84c71b;0x47f903adfaf421716c5013fb2df26575;0x48b9b3dc0ae02f8c4ba32ddaa645d44a;0x492d37011a5d08d1f3d965b6d4337624;0x4a5278a52a596136f857bd0242a95396;0x4bc6fc783ae4466b402df56e30dff1f8;0x4cace62e4a51b33bee88cea9ad5e1931;0x4d3862f35aec946656f286c5df28bb5f;0x4e472d576ae8fd815d7c5e7149b29eed;0x4fd3a98a7a55dadce506161d3bc43c83;0x50c78eb549c0e1b8135922339c1f3f93;0x51530a68597dc6e5ab236a5fee699dfd;0x522c45cc6979af02a0adb2eb78f3b84f;0x53b8c11179c4885f18d7fa870a851a21;0x54d2db4709717d0fb672c1409704f2e8;0x55465f9a19cc5a520e08892ce5725086;0x5639103e29c833b50586519873e87534;0x57ad94e3397514e8bdfc19f4019ed75a;0x58ed2492c9611a159a0f27d58a296665;0x5979a04fd9dc3d4822756fb9f85fc40b;0x5a06efebe9d854af29fbb70d6ec5e1b9;0x5b926b36f96573f29181ff611cb343d7;0x5cf8716089d086a23f24c4a68132ab1e;0x5d6cf5bd996da1ff875e8ccaf3440970;0x5e13ba19a969c8188cd0547e65de2cc2;0x5f873ec4b9d4ef4534aa1c1217a88eac;0x603bf467cf80bed0a36e3c22e8ab2ae2;0x61af70badf3d998d1b14744e9add888c;0x62d03f1eef39f06a109aacfa0c47ad3e;0x6344bbc3ff84d737a8e0e4967e310f50;0x642ea1958f3122670645df51e3b0e799;0x65ba25489f8c053abe3f973d91c645f7;0x66c56aecaf886cddb5b14f89075c6045;0x6751ee31bf354b800dcb07e5752ac22b;0x68115e404f21457d2a3839c4fe9d7314;0x6985da9d5f9c6220924271a88cebd17a;0x6afa95396f980bc799cca91c1a71f4c8;0x6b6e11e47f252c9a21b6e170680756a6;0x6c040bb20f90d9ca8f13dab7f586be6f;0x6d908f6f1f2dfe97376992db87f01c01;0x6eefc0cb2f2997703ce74a6f116a39b3;0x6f7b44163f94b02d849d0203631c9bdd;0x706f63290c018b4972c2362dc4c798cd;0x71fbe7f41cbcac14cab87e41b6b13aa3;0x7284a8502cb8c5f3c136a6f5202b1f11;0x73102c8d3c05e2ae794cee99525dbd7f;0x747a36db4cb017fed7e9d55ecfdc55b6;0x75eeb2065c0d30a36f939d32bdaaf7d8;0x7691fda26c095944641d45862b30d26a;0x7705797f7cb47e19dc670dea59467004;0x7845c90e8ca070e4fb9433cbd2f1c13b;0x79d14dd39c1d57b943ee7ba7a0876355;0x7aae0277ac193e5e4860a313361d46e7;0x7b3a86aabca41903f01aeb7f446be489;0x7c509cfccc11ec535ebfd0b8d9ea0c40;0x7dc41821dcaccb0ee6c598d4ab9cae2e;0x7ebb5785eca8a2e9ed4b40603d068b9c;0x7f2fd358fc1585b45531080c4f7029f2;0x80e53235d7826b4247295078a3e6d9bb;0x8171b6e8c73f4c1fff531814d1907bd5;0x820ef94cf73b25f8f4ddc0a0470a5e67;0x839a7d91e78602a54ca788cc357cfc09;0x84f067c79733f7f5e202b30ba8fd14c0;0x8564e31a878ed0a85a78fb67da8bb6ae;0x861bacbeb78ab94f51f623d34c11931c;0x878f2863a7379e12e98c6bbf3e673172;0x88cf9812572390efce7f559eb5d0804d;0x895b1ccf479eb7b276051df2c7a62223;0x8a24536b779ade557d8bc546513c0791;0x8bb0d7b66727f908c5f18d2a234aa5ff;0x8cdacde017920c586b54b6edbecb4d36;0x8d4e493d072f2b05d32efe81ccbdef58;0x8e310699372b42e2d8a026355a27caea;0x8fa58244279665bf60da6e5928516884;0x90b1a57b14035edb96855a778f8a6b94;0x912521a604be79862eff121bfdfcc9fa;0x925a6e0234ba10612571caaf6b66ec48;0x93ceeadf2407373c9d0b82c319104e26;0x94a4f08954b2c26c33aeb9048491a6ef;0x95307454440fe5318bd4f168f6e70481;0x964f3bf0740b8cd6805a29dc607d2133;0x97dbbf2d64b6ab8b382061b0120b835d;0x989b0f5c94a2a5761fd35f9199bc3262;0x990f8b81841f822ba7a917fdebca900c;0x9a70c425b41bebccac27cf497d50b5be;0x9be440f8a4a6cc91145d87250f2617d0;0x9c8e5aaed41339c1baf8bce292a7ff19;0x9d1ade73c4ae1e9c0282f48ee0d15d77;0x9e6591d7f4aa777b090c2c3a764b78c5;0x9ff1150ae4175026b1766456043ddaab;0xa04ddfa9924301b326b24466fb3e7ee5;0xa1d95b7482fe26ee9ec80c0a8948dc8b;0xa2a614d0b2fa4f099546d4be1fd2f939;0xa332900da24768542d3c9cd26da45b57;0xa4588a5bd2f29d048399a715f025b39e;0xa5cc0e86c24fba593be3ef79825311f0;0xa6b34122f24bd3be306d37cd14c93442;0xa727c5ffe2f6f4e388177fa166bf962c;0xa867758e12e2fa1eafe44180ed082713;0xa9f3f153025fdd43179e09ec9f7e857d;0xaa8cbef7325bb4a41c10d15809e4a0cf;0xab183a2a22e693f9a46a99347b9202a1;0xac72207c525366a90acfa2f3e613ea68;0xade6a4a142ee41f4b2b5ea9f94654806;0xae99eb0572ea2813b93b322b02ff6db4;0xaf0d6fd862570f4e01417a477089cfda;0xb01948e751c2342af71e4e69d752ccca;0xb18dcc3a417f13774f640605a5246ea4;0xb2f2839e717b7a9044eadeb133be4b16;0xb366074361c65dcdfc9096dd41c8e978;0xb40c1d151173a89d5235ad1adc4901b1;0xb59899c801ce8fc0ea4fe576ae3fa3df;0xb6e7d66c31cae627e1c13dc238a5866d;0xb77352b12177c17a59bb75ae4ad32403;0xb833e2c0d163cf877e484b8fc164953c;0xb9a7661dc1dee8dac63203e3b3123752;0xbad829b9f1da813dcdbcdb57258812e0;0xbb4cad64e167a66075c6933b57feb08e;0xbc26b73291d25330db63a8fcca7f5847;0xbdb233ef816f746d6319e090b809fa29;0xbecd7c4bb16b1d8a689738242e93df9b;0xbf59f896a1d63ad7d0ed70485ce57df5;0xc0762bce5dc3bf6385dc784413955407;0xc1e2af134d7e983e3da6302861e3f669;0xc29de0b77d7af1d93628e89cf779d3db;0xc309646a6dc7d6848e52a0f0850f71b5;0xc4637e3c1d7223d420f79b37188e997c;0xc5f7fae10dcf0489988dd35b6af83b12;0xc688b5453dcb6d6e93030beffc621ea0;0xc71c31982d764a332b7943838e14bcce;0xc85c81e9dd6244ce0c8a7da205a30df1;0xc9c80534cddf6393b4f035ce77d5af9f;0xcab74a90fddb0a74bf7eed7ae14f8a2d;0xcb23ce4ded662d290704a51693392843;0xcc49d41b9dd3d879a9a19ed10eb8c08a;0xcddd50c68d6eff2411dbd6bd7cce62e4;0xcea21f62bd6a96c31a550e09ea544756;0xcf369bbfadd7b19ea22f46659822e538;0xd022bc809e428afa5470724b3ff9e628;0xd1b6385d8effada7ec0a3a274d8f4446;0xd2c977f9befbc440e784e293db1561f4;0xd35df324ae46e31d5ffeaaffa963c39a;0xd437e972def3164df15b913834e22b53;0xd5a36dafce4e31104921d9544694893d;0xd6dc220bfe4a58f742af01e0d00eac8f;0xd748a6d6eef77faafad5498ca2780ee1;0xd80816a71ee37157dd2677ad29cfbfde;0xd99c927a0e5e560a655c3fc15bb91db0;0xdae3ddde3e5a3fed6ed2e775cd233802;0xdb7759032ee718b0d6a8af19bf559a6c;0xdc1d43555e52ede0780d94de22d472a5;0xdd89c7884eefcabdc077dcb250a2d0cb;0xdef6882c7eeba35acbf90406c638f579;0xdf620cf16e56840773834c6ab44e5717;0xe0dec6521802d592e4476c5a4b4df359;0xe14a428f08bff2cf5c3d2436393b5137;0xe2350d2b38bb9b2857b3fc82afa17485;0xe3a189f62806bc75efc9b4eeddd7d6eb;0xe4cb93a058b34925416c8f2940563e22;0xe55f177d480e6e78f916c74532209c4c;0xe62058d9780a079ff2981ff1a4bab9fe;0xe7b4dc0468b720c24ae2579dd6cc1b90;0xe8f46c7598a32e3f6d1169bc5d7baaaf;0xe960e8a8881e0962d56b21d02f0d08c1;0xea1fa70cb81a6085dee5f964b9972d73;0xeb8b23d1a8a747d8669fb108cbe18f1d;0xece13987d812b288c83a8acf566067d4;0xed75bd5ac8af95d57040c2a32416c5ba;0xee0af2fef8abfc327bce1a17b28ce008;0xef9e7623e816db6fc3b4527bc0fa4266;0xf08a511cdb83e00b35eb665567214176;0xf11ed5c1cb3ec7568d912e391557e318;0xf2619a65fb3aaeb1861ff68d83cdc6aa;0xf3f51eb8eb8789ec3e65bee1f1bb64c4;0xf49f04ee9b327cbc90c085266c3a8c0d;0xf50b80338b8f5be128bacd4a1e4c2e63;0xf674cf97bb8b3206233415fe88d60bd1;0xf7e04b4aab36155b9b4e5d92faa0a9bf;0xf8a0fb3b5b221ba6bcbd63b371171880;0xf9347fe64b9f3cfb04c72bdf0361baee;0xfa4b30427b9b551c0f49f36b95fb9f5c;0xfbdfb49f6b267241b733bb07e78d3d32;0xfcb5aec91b938711199680c07a0cd5fb;0xfd212a140b2ea04ca1ecc8ac087a7795;0xfe5e65b03b2ac9abaa6210189ee05227;0xffcae16d2b97eef612185874ec96f049];
   [0x00000000000000000000000000000000;0x94a5640d89a27f4b6e16c34ce8e3d04d;0xeb89c81ad187fe96dc2c45981305639a;0x7f2cac17582581ddb23a86d4fbe6b3d7;0x15d1533461cd3fef7b588af3260ac6f7;0x81743739e86f40a4154e49bfcee916ba;0xfe589b2eb04ac179a774cf6b350fa56d;0x6afdff2339e8be32c9620c27ddec7520;0x2a61a668c2597e1df6b0d7254c144f2d;0xbec4c2654bfb015698a61469a4f79f60;0xc1e86e7213de808b2a9c92bd5f112cb7;0x554d0a7f9a7cffc0448a51f1b7f2fcfa;0x3fb0f55ca39441f28de85dd66a1e89da;0xab1591512a363eb9e3fe9e9a82fd5997;0xd4393d467213bf6451c4184e791bea40;0x409c594bfbb1c02f3fd2db0291f83a0d;0x54c28fd047b2fc3a2fa36d4a98289e5a;0xc067ebddce10837141b5ae0670cb4e17;0xbf4b47ca963502acf38f28d28b2dfdc0;0x2bee23c71f977de79d99eb9e63ce2d8d;0x4113dce4267fc3d554fbe7b9be2258ad;0xd5b6b8e9afddbc9e3aed24f556c188e0;0xaa9a14fef7f83d4388d7a221ad273b37;0x3e3f70f37e5a4208e6c1616d45c4eb7a;0x7ea329b885eb8227d913ba6fd43cd177;0xea064db50c49fd6cb70579233cdf013a;0x952ae1a2546c7cb1053ffff7c739b2ed;0x018f85afddce03fa6b293cbb2fda62a0;0x6b727a8ce426bdc8a24b309cf2361780;0xffd71e816d84c283cc5df3d01ad5c7cd;0x80fbb29635a1435e7e677504e133741a;0x145ed69bbc033c151071b64809d0a457;0xa847dd638ea73b745e85da94f350ffb4;0x3ce2b96e0705443f309319d81bb32ff9;0x43ce15795f20c5e282a99f0ce0559c2e;0xd76b7174d682baa9ecbf5c4008b64c63;0xbd968e57ef6a049b25dd5067d55a3943;0x2933ea5a66c87bd04bcb932b3db9e90e;0x561f464d3eedfa0df9f115ffc65f5ad9;0xc2ba2240b74f854697e7d6b32ebc8a94;0x82267b0b4cfe4569a8350db1bf44b099;0x16831f06c55c3a22c623cefd57a760d4;0x69afb3119d79bbff74194829ac41d303;0xfd0ad71c14dbc4b41a0f8b6544a2034e;0x97f7283f2d337a86d36d8742994e766e;0x03524c32a49105cdbd7b440e71ada623;0x7c7ee025fcb484100f41c2da8a4b15f4;0xe8db84287516fb5b6157019662a8c5b9;0xfc8552b3c915c74e7126b7de6b7861ee;0x682036be40b7b8051f307492839bb1a3;0x170c9aa9189239d8ad0af246787d0274;0x83a9fea491304693c31c310a909ed239;0xe9540187a8d8f8a10a7e3d2d4d72a719;0x7df1658a217a87ea6468fe61a5917754;0x02ddc99d795f0637d65278b55e77c483;0x9678ad90f0fd797cb844bbf9b69414ce;0xd6e4f4db0b4cb953879660fb276c2ec3;0x424190d682eec618e980a3b7cf8ffe8e;0x3d6d3cc1dacb47c55bba256334694d59;0xa9c858cc5369388e35ace62fdc8a9d14;0xc335a7ef6a8186bcfcceea080166e834;0x5790c3e2e323f9f792d82944e9853879;0x28bc6ff5bb06782a20e2af9012638bae;0xbc190bf832a407614ef46cdcfa805be3;0x938e79c6df8d76e8bcc977eb25a03dab;0x072b1dcb562f09a3d2dfb4a7cd43ede6;0x7807b1dc0e0a887e60e5327336a55e31;0xeca2d5d187a8f7350ef3f13fde468e7c;0x865f2af2be404907c791fd1803aafb5c;0x12fa4eff37e2364ca9873e54eb492b11;0x6dd6e2e86fc7b7911bbdb88010af98c6;0xf97386e5e665c8da75ab7bccf84c488b;0xb9efdfae1dd408f54a79a0ce69b47286;0x2d4abba3947677be246f63828157a2cb;0x526617b4cc53f6639655e5567ab1111c;0xc6c373b945f18928f843261a9252c151;0xac3e8c9a7c19371a31212a3d4fbeb471;0x389be897f5bb48515f37e971a75d643c;0x47b74480ad9ec98ced0d6fa55cbbd7eb;0xd312208d243cb6c7831bace9b45807a6;0xc74cf616983f8ad2936a1aa1bd88a3f1;0x53e9921b119df599fd7cd9ed556b73bc;0x2cc53e0c49b874444f465f39ae8dc06b;0xb8605a01c01a0b0f21509c75466e1026;0xd29da522f9f2b53de83290529b826506;0x4638c12f7050ca768624531e7361b54b;0x39146d3828754bab341ed5ca8887069c;0xadb10935a1d734e05a0816866064d6d1;0xed2d507e5a66f4cf65dacd84f19cecdc;0x79883473d3c48b840bcc0ec8197f3c91;0x06a498648be10a59b9f6881ce2998f46;0x9201fc6902437512d7e04b500a7a5f0b;0xf8fc034a3babcb201e824777d7962a2b;0x6c596747b209b46b7094843b3f75fa66;0x1375cb50ea2c35b6c2ae02efc49349b1;0x87d0af5d638e4afdacb8c1a32c7099fc;0x3bc9a4a5512a4d9ce24cad7fd6f0c21f;0xaf6cc0a8d88832d78c5a6e333e131252;0xd0406cbf80adb30a3e60e8e7c5f5a185;0x44e508b2090fcc4150762bab2d1671c8;0x2e18f79130e772739914278cf0fa04e8;0xbabd939cb9450d38f702e4c01819d4a5;0xc5913f8be1608ce545386214e3ff6772;0x51345b8668c2f3ae2b2ea1580b1cb73f;0x11a802cd9373338114fc7a5a9ae48d32;0x850d66c01ad14cca7aeab91672075d7f;0xfa21cad742f4cd17c8d03fc289e1eea8;0x6e84aedacb56b25ca6c6fc8e61023ee5;0x047951f9f2be0c6e6fa4f0a9bcee4bc5;0x90dc35f47b1c732501b233e5540d9b88;0xeff099e32339f2f8b388b531afeb285f;0x7b55fdeeaa9b8db3dd9e767d4708f812;0x6f0b2b751698b1a6cdefc0354ed85c45;0xfbae4f789f3aceeda3f90379a63b8c08;0x8482e36fc71f4f3011c385ad5ddd3fdf;0x102787624ebd307b7fd546e1b53eef92;0x7ada784177558e49b6b74ac668d29ab2;0xee7f1c4cfef7f102d8a1898a80314aff;0x9153b05ba6d270df6a9b0f5e7bd7f928;0x05f6d4562f700f94048dcc1293342965;0x456a8d1dd4c1cfbb3b5f171002cc1368;0xd1cfe9105d63b0f05549d45cea2fc325;0xaee345070546312de773528811c970f2;0x3a46210a8ce44e66896591c4f92aa0bf;0x50bbde29b50cf05440079de324c6d59f;0xc41eba243cae8f1f2e115eafcc2505d2;0xbb321633648b0ec29c2bd87b37c3b605;0x2f97723eed297189f23d1b37df206648;0xe5dff24f7dd9ec13bb51ee154a837a95;0x717a9642f47b9358d5472d59a260aad8;0x0e563a55ac5e1285677dab8d5986190f;0x9af35e5825fc6dce096b68c1b165c942;0xf00ea17b1c14d3fcc00964e66c89bc62;0x64abc57695b6acb7ae1fa7aa846a6c2f;0x1b876961cd932d6a1c25217e7f8cdff8;0x8f220d6c443152217233e232976f0fb5;0xcfbe5427bf80920e4de13930069735b8;0x5b1b302a3622ed4523f7fa7cee74e5f5;0x24379c3d6e076c9891cd7ca815925622;0xb092f830e7a513d3ffdbbfe4fd71866f;0xda6f0713de4dade136b9b3c3209df34f;0x4eca631e57efd2aa58af708fc87e2302;0x31e6cf090fca5377ea95f65b339890d5;0xa543ab0486682c3c84833517db7b4098;0xb11d7d9f3a6b102994f2835fd2abe4cf;0x25b81992b3c96f62fae440133a483482;0x5a94b585ebeceebf48dec6c7c1ae8755;0xce31d188624e91f426c8058b294d5718;0xa4cc2eab5ba62fc6efaa09acf4a12238;0x30694aa6d204508d81bccae01c42f275;0x4f45e6b18a21d15033864c34e7a441a2;0xdbe082bc0383ae1b5d908f780f4791ef;0x9b7cdbf7f8326e346242547a9ebfabe2;0x0fd9bffa7190117f0c549736765c7baf;0x70f513ed29b590a2be6e11e28dbac878;0xe45077e0a017efe9d078d2ae65591835;0x8ead88c399ff51db191ade89b8b56d15;0x1a08ecce105d2e90770c1dc55056bd58;0x652440d94878af4dc5369b11abb00e8f;0xf18124d4c1dad006ab20585d4353dec2;0x4d982f2cf37ed767e5d43481b9d38521;0xd93d4b217adca82c8bc2f7cd5130556c;0xa611e73622f929f139f87119aad6e6bb;0x32b4833bab5b56ba57eeb255423536f6;0x58497c1892b3e8889e8cbe729fd943d6;0xccec18151b1197c3f09a7d3e773a939b;0xb3c0b4024334161e42a0fbea8cdc204c;0x2765d00fca9669552cb638a6643ff001;0x67f989443127a97a1364e3a4f5c7ca0c;0xf35ced49b885d6317d7220e81d241a41;0x8c70415ee0a057eccf48a63ce6c2a996;0x18d52553690228a7a15e65700e2179db;0x7228da7050ea9695683c6957d3cd0cfb;0xe68dbe7dd948e9de062aaa1b3b2edcb6;0x99a1126a816d6803b4102ccfc0c86f61;0x0d04766708cf1748da06ef83282bbf2c;0x195aa0fcb4cc2b5dca7759cb21fb1b7b;0x8dffc4f13d6e5416a4619a87c918cb36;0xf2d368e6654bd5cb165b1c5332fe78e1;0x66760cebece9aa80784ddf1fda1da8ac;0x0c8bf3c8d50114b2b12fd33807f1dd8c;0x982e97c55ca36bf9df391074ef120dc1;0xe7023bd20486ea246d0396a014f4be16;0x73a75fdf8d24956f031555ecfc176e5b;0x333b0694769555403cc78eee6def5456;0xa79e6299ff372a0b52d14da2850c841b;0xd8b2ce8ea712abd6e0ebcb767eea37cc;0x4c17aa832eb0d49d8efd083a9609e781;0x26ea55a017586aaf479f041d4be592a1;0xb24f31ad9efa15e42989c751a30642ec;0xcd639dbac6df94399bb3418558e0f13b;0x59c6f9b74f7deb72f5a582c9b0032176;0x76518b89a2549afb079899fe6f23473e;0xe2f4ef842bf6e5b0698e5ab287c09773;0x9dd8439373d3646ddbb4dc667c2624a4;0x097d279efa711b26b5a21f2a94c5f4e9;0x6380d8bdc399a5147cc0130d492981c9;0xf725bcb04a3bda5f12d6d041a1ca5184;0x880910a7121e5b82a0ec56955a2ce253;0x1cac74aa9bbc24c9cefa95d9b2cf321e;0x5c302de1600de4e6f1284edb23370813;0xc89549ece9af9bad9f3e8d97cbd4d85e;0xb7b9e5fbb18a1a702d040b4330326b89;0x231c81f63828653b4312c80fd8d1bbc4;0x49e17ed501c0db098a70c428053dcee4;0xdd441ad88862a442e4660764edde1ea9;0xa268b6cfd047259f565c81b01638ad7e;0x36cdd2c259e55ad4384a42fcfedb7d33;0x22930459e5e666c1283bf4b4f70bd964;0xb63660546c44198a462d37f81fe80929;0xc91acc4334619857f417b12ce40ebafe;0x5dbfa84ebdc3e71c9a0172600ced6ab3;0x3742576d842b592e53637e47d1011f93;0xa3e733600d8926653d75bd0b39e2cfde;0xdccb9f7755aca7b88f4f3bdfc2047c09;0x486efb7adc0ed8f3e159f8932ae7ac44;0x08f2a23127bf18dcde8b2391bb1f9649;0x9c57c63cae1d6797b09de0dd53fc4604;0xe37b6a2bf638e64a02a76609a81af5d3;0x77de0e267f9a99016cb1a54540f9259e;0x1d23f10546722733a5d3a9629d1550be;0x89869508cfd05878cbc56a2e75f680f3;0xf6aa391f97f5d9a579ffecfa8e103324;0x620f5d121e57a6ee17e92fb666f3e369;0xde1656ea2cf3a18f591d436a9c73b88a;0x4ab332e7a551dec4370b8026749068c7;0x359f9ef0fd745f19853106f28f76db10;0xa13afafd74d62052eb27c5be67950b5d;0xcbc705de4d3e9e602245c999ba797e7d;0x5f6261d3c49ce12b4c530ad5529aae30;0x204ecdc49cb960f6fe698c01a97c1de7;0xb4eba9c9151b1fbd907f4f4d419fcdaa;0xf477f082eeaadf92afad944fd067f7a7;0x60d2948f6708a0d9c1bb5703388427ea;0x1ffe38983f2d21047381d1d7c362943d;0x8b5b5c95b68f5e4f1d97129b2b814470;0xe1a6a3b68f67e07dd4f51ebcf66d3150;0x7503c7bb06c59f36bae3ddf01e8ee11d;0x0a2f6bac5ee01eeb08d95b24e56852ca;0x9e8a0fa1d74261a066cf98680d8b8287;0x8ad4d93a6b415db576be2e20045b26d0;0x1e71bd37e2e322fe18a8ed6cecb8f69d;0x615d1120bac6a323aa926bb8175e454a;0xf5f8752d3364dc68c484a8f4ffbd9507;0x9f058a0e0a8c625a0de6a4d32251e027;0x0ba0ee03832e1d1163f0679fcab2306a;0x748c4214db0b9cccd1cae14b315483bd;0xe029261952a9e387bfdc2207d9b753f0;0xa0b57f52a91823a8800ef905484f69fd;0x34101b5f20ba5ce3ee183a49a0acb9b0;0x4b3cb748789fdd3e5c22bc9d5b4a0a67;0xdf99d345f13da27532347fd1b3a9da2a;0xb5642c66c8d51c47fb5673f66e45af0a;0x21c1486b4177630c9540b0ba86a67f47;0x5eede47c1952e2d1277a366e7d40cc90;0xca48807190f09d9a496cf52295a31cdd];
   [0x00000000000000000000000000000000;0x203c48f84848c88e2af502dd1430448e;0x40789033909053df54290479286088df;0x6044d8cbd8d89b517edc06a43c50cc51;0x80f0e366e3e3a67da85208f250c0d37d;0xa0ccab9eabab6ef382a70a2f44f097f3;0xc08873557373f5a2fc7b0c8b78a05ba2;0xe0b43bad3b3b3d2cd68e0e566c901f2c;0xc32305cc05058ffa93a41027a04365fa;0xe31f4d344d4d4774b95112fab4732174;0x835b95ff9595dc25c78d145e8823ed25;0xa367dd07dddd14abed7816839c13a9ab;0x43d3e6aae6e629873bf618d5f083b687;0x63efae52aeaee10911031a08e4b3f209;0x03ab769976767a586fdf1cacd8e33e58;0x23973e613e3eb2d6452a1e71ccd37ad6;0x45460a5b0a0add37e58b204e8386ca37;0x657a42a3424215b9cf7e229397b68eb9;0x053e9a689a9a8ee8b1a22437abe642e8;0x2502d290d2d246669b5726eabfd60666;0xc5b6e93de9e97b4a4dd928bcd346194a;0xe58aa1c5a1a1b3c4672c2a61c7765dc4;0x85ce790e7979289519f02cc5fb269195;0xa5f231f63131e01b33052e18ef16d51b;0x86650f970f0f52cd762f306923c5afcd;0xa659476f47479a435cda32b437f5eb43;0xc61d9fa49f9f0112220634100ba52712;0xe621d75cd7d7c99c08f336cd1f95639c;0x0695ecf1ececf4b0de7d389b73057cb0;0x26a9a409a4a43c3ef4883a466735383e;0x46ed7cc27c7ca76f8a543ce25b65f46f;0x66d1343a34346fe1a0a13e3f4f55b0e1;0x8a8c14b61414796e09d5409cc5cf576e;0xaab05c4e5c5cb1e023204241d1ff13e0;0xcaf4848584842ab15dfc44e5edafdfb1;0xeac8cc7dcccce23f77094638f99f9b3f;0x0a7cf7d0f7f7df13a187486e950f8413;0x2a40bf28bfbf179d8b724ab3813fc09d;0x4a0467e367678cccf5ae4c17bd6f0ccc;0x6a382f1b2f2f4442df5b4ecaa95f4842;0x49af117a1111f6949a7150bb658c3294;0x6993598259593e1ab084526671bc761a;0x09d781498181a54bce5854c24decba4b;0x29ebc9b1c9c96dc5e4ad561f59dcfec5;0xc95ff21cf2f250e932235849354ce1e9;0xe963bae4baba986718d65a94217ca567;0x8927622f62620336660a5c301d2c6936;0xa91b2ad72a2acbb84cff5eed091c2db8;0xcfca1eed1e1ea459ec5e60d246499d59;0xeff6561556566cd7c6ab620f5279d9d7;0x8fb28ede8e8ef786b87764ab6e291586;0xaf8ec626c6c63f08928266767a195108;0x4f3afd8bfdfd0224440c682016894e24;0x6f06b573b5b5caaa6ef96afd02b90aaa;0x0f426db86d6d51fb10256c593ee9c6fb;0x2f7e2540252599753ad06e842ad98275;0x0ce91b211b1b2ba37ffa70f5e60af8a3;0x2cd553d95353e32d550f7228f23abc2d;0x4c918b128b8b787c2bd3748cce6a707c;0x6cadc3eac3c3b0f201267651da5a34f2;0x8c19f847f8f88dded7a87807b6ca2bde;0xac25b0bfb0b04550fd5d7adaa2fa6f50;0xcc6168746868de0183817c7e9eaaa301;0xec5d208c2020168fa9747ea38a9ae78f;0xd7db28af2828f2dc126980fb495daedc;0xf7e7605760603a52389c82265d6dea52;0x97a3b89cb8b8a10346408482613d2603;0xb79ff064f0f0698d6cb5865f750d628d;0x572bcbc9cbcb54a1ba3b8809199d7da1;0x7717833183839c2f90ce8ad40dad392f;0x17535bfa5b5b077eee128c7031fdf57e;0x376f13021313cff0c4e78ead25cdb1f0;0x14f82d632d2d7d2681cd90dce91ecb26;0x34c4659b6565b5a8ab389201fd2e8fa8;0x5480bd50bdbd2ef9d5e494a5c17e43f9;0x74bcf5a8f5f5e677ff119678d54e0777;0x9408ce05cecedb5b299f982eb9de185b;0xb43486fd868613d5036a9af3adee5cd5;0xd4705e365e5e88847db69c5791be9084;0xf44c16ce1616400a57439e8a858ed40a;0x929d22f422222febf7e2a0b5cadb64eb;0xb2a16a0c6a6ae765dd17a268deeb2065;0xd2e5b2c7b2b27c34a3cba4cce2bbec34;0xf2d9fa3ffafab4ba893ea611f68ba8ba;0x126dc192c1c189965fb0a8479a1bb796;0x3251896a898941187545aa9a8e2bf318;0x521551a15151da490b99ac3eb27b3f49;0x72291959191912c7216caee3a64b7bc7;0x51be27382727a0116446b0926a980111;0x71826fc06f6f689f4eb3b24f7ea8459f;0x11c6b70bb7b7f3ce306fb4eb42f889ce;0x31fafff3ffff3b401a9ab63656c8cd40;0xd14ec45ec4c4066ccc14b8603a58d26c;0xf1728ca68c8ccee2e6e1babd2e6896e2;0x9136546d545455b3983dbc1912385ab3;0xb10a1c951c1c9d3db2c8bec406081e3d;0x5d573c193c3c8bb21bbcc0678c92f9b2;0x7d6b74e17474433c3149c2ba98a2bd3c;0x1d2fac2aacacd86d4f95c41ea4f2716d;0x3d13e4d2e4e410e36560c6c3b0c235e3;0xdda7df7fdfdf2dcfb3eec895dc522acf;0xfd9b97879797e541991bca48c8626e41;0x9ddf4f4c4f4f7e10e7c7ccecf432a210;0xbde307b40707b69ecd32ce31e002e69e;0x9e7439d5393904488818d0402cd19c48;0xbe48712d7171ccc6a2edd29d38e1d8c6;0xde0ca9e6a9a95797dc31d43904b11497;0xfe30e11ee1e19f19f6c4d6e410815019;0x1e84dab3dadaa235204ad8b27c114f35;0x3eb8924b92926abb0abfda6f68210bbb;0x5efc4a804a4af1ea7463dccb5471c7ea;0x7ec00278020239645e96de1640418364;0x1811364236365685fe37e0290f143385;0x382d7eba7e7e9e0bd4c2e2f41b24770b;0x5869a671a6a6055aaa1ee4502774bb5a;0x7855ee89eeeecdd480ebe68d3344ffd4;0x98e1d524d5d5f0f85665e8db5fd4e0f8;0xb8dd9ddc9d9d38767c90ea064be4a476;0xd89945174545a327024ceca277b46827;0xf8a50def0d0d6ba928b9ee7f63842ca9;0xdb32338e3333d97f6d93f00eaf57567f;0xfb0e7b767b7b11f14766f2d3bb6712f1;0x9b4aa3bda3a38aa039baf4778737dea0;0xbb76eb45ebeb422e134ff6aa93079a2e;0x5bc2d0e8d0d07f02c5c1f8fcff978502;0x7bfe98109898b78cef34fa21eba7c18c;0x1bba40db40402cdd91e8fc85d7f70ddd;0x3b8608230808e453bb1dfe58c3c74953;0x6d75509d5050277b24d2c33592ba9f7b;0x4d4918651818eff50e27c1e8868adbf5;0x2d0dc0aec0c074a470fbc74cbada17a4;0x0d3188568888bc2a5a0ec591aeea532a;0xed85b3fbb3b381068c80cbc7c27a4c06;0xcdb9fb03fbfb4988a675c91ad64a0888;0xadfd23c82323d2d9d8a9cfbeea1ac4d9;0x8dc16b306b6b1a57f25ccd63fe2a8057;0xae5655515555a881b776d31232f9fa81;0x8e6a1da91d1d600f9d83d1cf26c9be0f;0xee2ec562c5c5fb5ee35fd76b1a99725e;0xce128d9a8d8d33d0c9aad5b60ea936d0;0x2ea6b637b6b60efc1f24dbe0623929fc;0x0e9afecffefec67235d1d93d76096d72;0x6ede260426265d234b0ddf994a59a123;0x4ee26efc6e6e95ad61f8dd445e69e5ad;0x28335ac65a5afa4cc159e37b113c554c;0x080f123e121232c2ebace1a6050c11c2;0x684bcaf5cacaa9939570e702395cdd93;0x4877820d8282611dbf85e5df2d6c991d;0xa8c3b9a0b9b95c31690beb8941fc8631;0x88fff158f1f194bf43fee95455ccc2bf;0xe8bb299329290fee3d22eff0699c0eee;0xc887616b6161c76017d7ed2d7dac4a60;0xeb105f0a5f5f75b652fdf35cb17f30b6;0xcb2c17f21717bd387808f181a54f7438;0xab68cf39cfcf266906d4f725991fb869;0x8b5487c18787eee72c21f5f88d2ffce7;0x6be0bc6cbcbcd3cbfaaffbaee1bfe3cb;0x4bdcf494f4f41b45d05af973f58fa745;0x2b982c5f2c2c8014ae86ffd7c9df6b14;0x0ba464a76464489a8473fd0addef2f9a;0xe7f9442b44445e152d0783a95775c815;0xc7c50cd30c0c969b07f2817443458c9b;0xa781d418d4d40dca792e87d07f1540ca;0x87bd9ce09c9cc54453db850d6b250444;0x6709a74da7a7f86885558b5b07b51b68;0x4735efb5efef30e6afa0898613855fe6;0x2771377e3737abb7d17c8f222fd593b7;0x074d7f867f7f6339fb898dff3be5d739;0x24da41e74141d1efbea3938ef736adef;0x04e6091f0909196194569153e306e961;0x64a2d1d4d1d18230ea8a97f7df562530;0x449e992c99994abec07f952acb6661be;0xa42aa281a2a2779216f19b7ca7f67e92;0x8416ea79eaeabf1c3c0499a1b3c63a1c;0xe45232b23232244d42d89f058f96f64d;0xc46e7a4a7a7aecc3682d9dd89ba6b2c3;0xa2bf4e704e4e8322c88ca3e7d4f30222;0x8283068806064bace279a13ac0c346ac;0xe2c7de43deded0fd9ca5a79efc938afd;0xc2fb96bb96961873b650a543e8a3ce73;0x224fad16adad255f60deab158433d15f;0x0273e5eee5e5edd14a2ba9c8900395d1;0x62373d253d3d768034f7af6cac535980;0x420b75dd7575be0e1e02adb1b8631d0e;0x619c4bbc4b4b0cd85b28b3c074b067d8;0x41a003440303c45671ddb11d60802356;0x21e4db8fdbdb5f070f01b7b95cd0ef07;0x01d893779393978925f4b56448e0ab89;0xe16ca8daa8a8aaa5f37abb322470b4a5;0xc150e022e0e0622bd98fb9ef3040f02b;0xa11438e93838f97aa753bf4b0c103c7a;0x81287011707031f48da6bd96182078f4;0xbaae78327878d5a736bb43cedbe731a7;0x9a9230ca30301d291c4e4113cfd77529;0xfad6e801e8e88678629247b7f387b978;0xdaeaa0f9a0a04ef64867456ae7b7fdf6;0x3a5e9b549b9b73da9ee94b3c8b27e2da;0x1a62d3acd3d3bb54b41c49e19f17a654;0x7a260b670b0b2005cac04f45a3476a05;0x5a1a439f4343e88be0354d98b7772e8b;0x798d7dfe7d7d5a5da51f53e97ba4545d;0x59b13506353592d38fea51346f9410d3;0x39f5edcdeded0982f136579053c4dc82;0x19c9a535a5a5c10cdbc3554d47f4980c;0xf97d9e989e9efc200d4d5b1b2b648720;0xd941d660d6d634ae27b859c63f54c3ae;0xb9050eab0e0eafff59645f6203040fff;0x993946534646677173915dbf17344b71;0xffe8726972720890d33063805861fb90;0xdfd43a913a3ac01ef9c5615d4c51bf1e;0xbf90e25ae2e25b4f871967f97001734f;0x9facaaa2aaaa93c1adec6524643137c1;0x7f18910f9191aeed7b626b7208a128ed;0x5f24d9f7d9d96663519769af1c916c63;0x3f60013c0101fd322f4b6f0b20c1a032;0x1f5c49c4494935bc05be6dd634f1e4bc;0x3ccb77a57777876a409473a7f8229e6a;0x1cf73f5d3f3f4fe46a61717aec12dae4;0x7cb3e796e7e7d4b514bd77ded04216b5;0x5c8faf6eafaf1c3b3e487503c472523b;0xbc3b94c394942117e8c67b55a8e24d17;0x9c07dc3bdcdce999c2337988bcd20999;0xfc4304f0040472c8bcef7f2c8082c5c8;0xdc7f4c084c4cba46961a7df194b28146;0x30226c846c6cacc93f6e03521e2866c9;0x101e247c24246447159b018f0a182247;0x705afcb7fcfcff166b47072b3648ee16;0x5066b44fb4b4379841b205f62278aa98;0xb0d28fe28f8f0ab4973c0ba04ee8b5b4;0x90eec71ac7c7c23abdc9097d5ad8f13a;0xf0aa1fd11f1f596bc3150fd966883d6b;0xd0965729575791e5e9e00d0472b879e5;0xf301694869692333acca1375be6b0333;0xd33d21b02121ebbd863f11a8aa5b47bd;0xb379f97bf9f970ecf8e3170c960b8bec;0x9345b183b1b1b862d21615d1823bcf62;0x73f18a2e8a8a854e04981b87eeabd04e;0x53cdc2d6c2c24dc02e6d195afa9b94c0;0x33891a1d1a1ad69150b11ffec6cb5891;0x13b552e552521e1f7a441d23d2fb1c1f;0x756466df666671fedae5231c9daeacfe;0x55582e272e2eb970f01021c1899ee870;0x351cf6ecf6f622218ecc2765b5ce2421;0x1520be14bebeeaafa43925b8a1fe60af;0xf59485b98585d78372b72beecd6e7f83;0xd5a8cd41cdcd1f0d58422933d95e3b0d;0xb5ec158a1515845c269e2f97e50ef75c;0x95d05d725d5d4cd20c6b2d4af13eb3d2;0xb64763136363fe044941333b3dedc904;0x967b2beb2b2b368a63b431e629dd8d8a;0xf63ff320f3f3addb1d683742158d41db;0xd603bbd8bbbb6555379d359f01bd0555;0x36b7807580805879e1133bc96d2d1a79;0x168bc88dc8c890f7cbe63914791d5ef7;0x76cf104610100ba6b53a3fb0454d92a6;0x56f358be5858c3289fcf3d6d517dd628];
   [0x00000000000000000000000000000000;0x8544df527fc69860d4520e65079f86ea;0xc9887da4fe4ff3c06ba41cca0efdcf17;0x4ccca2f681896ba0bff612af096249fd;0x51d3fa8b3f9e2543d68b38571c395d2e;0xd49725d94058bd2302d936321ba6dbc4;0x985b872fc1d1d683bd2f249d12c49239;0x1d1f587dbe174ee3697d2af8155b14d3;0xa26537d57eff4a866fd570ae3872ba5c;0x2721e8870139d2e6bb877ecb3fed3cb6;0x6bed4a7180b0b94604716c64368f754b;0xeea99523ff762126d02362013110f3a1;0xf3b6cd5e41616fc5b95e48f9244be772;0x76f2120c3ea7f7a56d0c469c23d46198;0x3a3eb0fabf2e9c05d2fa54332ab62865;0xbf7a6fa8c0e8046506a85a562d29ae8f;0x87ca6e69fc3d94cfde69e09f70e4b7b8;0x028eb13b83fb0caf0a3beefa777b3152;0x4e4213cd0272670fb5cdfc557e1978af;0xcb06cc9f7db4ff6f619ff2307986fe45;0xd61994e2c3a3b18c08e2d8c86cddea96;0x535d4bb0bc6529ecdcb0d6ad6b426c7c;0x1f91e9463dec424c6346c40262202581;0x9ad53614422ada2cb714ca6765bfa36b;0x25af59bc82c2de49b1bc903148960de4;0xa0eb86eefd04462965ee9e544f098b0e;0xec2724187c8d2d89da188cfb466bc2f3;0x6963fb4a034bb5e90e4a829e41f44419;0x747ca337bd5cfb0a6737a86654af50ca;0xf1387c65c29a636ab365a6035330d620;0xbdf4de93431308ca0c93b4ac5a529fdd;0x38b001c13cd590aad8c1bac95dcd1937;0xcd57dcd23b7aeb5d7fd203fde00badb3;0x4813038044bc733dab800d98e7942b59;0x04dfa176c535189d14761f37eef662a4;0x819b7e24baf380fdc0241152e969e44e;0x9c84265904e4ce1ea9593baafc32f09d;0x19c0f90b7b22567e7d0b35cffbad7677;0x550c5bfdfaab3ddec2fd2760f2cf3f8a;0xd04884af856da5be16af2905f550b960;0x6f32eb074585a1db10077353d87917ef;0xea7634553a4339bbc4557d36dfe69105;0xa6ba96a3bbca521b7ba36f99d684d8f8;0x23fe49f1c40cca7baff161fcd11b5e12;0x3ee1118c7a1b8498c68c4b04c4404ac1;0xbba5cede05dd1cf812de4561c3dfcc2b;0xf7696c2884547758ad2857cecabd85d6;0x722db37afb92ef38797a59abcd22033c;0x4a9db2bbc7477f92a1bbe36290ef1a0b;0xcfd96de9b881e7f275e9ed0797709ce1;0x8315cf1f39088c52ca1fffa89e12d51c;0x0651104d46ce14321e4df1cd998d53f6;0x1b4e4830f8d95ad17730db358cd64725;0x9e0a9762871fc2b1a362d5508b49c1cf;0xd2c635940696a9111c94c7ff822b8832;0x5782eac679503171c8c6c99a85b40ed8;0xe8f8856eb9b83514ce6e93cca89da057;0x6dbc5a3cc67ead741a3c9da9af0226bd;0x2170f8ca47f7c6d4a5ca8f06a6606f40;0xa434279838315eb471988163a1ffe9aa;0xb92b7fe58626105718e5ab9bb4a4fd79;0x3c6fa0b7f9e08837ccb7a5feb33b7b93;0x70a302417869e3977341b751ba59326e;0xf5e7dd1307af7bf7a713b934bdc6b484;0x59ae7b6776f415bafe670639031699a5;0xdceaa43509328dda2a35085c04891f4f;0x902606c388bbe67a95c31af30deb56b2;0x1562d991f77d7e1a419114960a74d058;0x087d81ec496a30f928ec3e6e1f2fc48b;0x8d395ebe36aca899fcbe300b18b04261;0xc1f5fc48b725c339434822a411d20b9c;0x44b1231ac8e35b59971a2cc1164d8d76;0xfbcb4cb2080b5f3c91b276973b6423f9;0x7e8f93e077cdc75c45e078f23cfba513;0x32433116f644acfcfa166a5d3599ecee;0xb707ee448982349c2e44643832066a04;0xaa18b63937957a7f47394ec0275d7ed7;0x2f5c696b4853e21f936b40a520c2f83d;0x6390cb9dc9da89bf2c9d520a29a0b1c0;0xe6d414cfb61c11dff8cf5c6f2e3f372a;0xde64150e8ac98175200ee6a673f22e1d;0x5b20ca5cf50f1915f45ce8c3746da8f7;0x17ec68aa748672b54baafa6c7d0fe10a;0x92a8b7f80b40ead59ff8f4097a9067e0;0x8fb7ef85b557a436f685def16fcb7333;0x0af330d7ca913c5622d7d0946854f5d9;0x463f92214b1857f69d21c23b6136bc24;0xc37b4d7334decf964973cc5e66a93ace;0x7c0122dbf436cbf34fdb96084b809441;0xf945fd898bf053939b89986d4c1f12ab;0xb5895f7f0a793833247f8ac2457d5b56;0x30cd802d75bfa053f02d84a742e2ddbc;0x2dd2d850cba8eeb09950ae5f57b9c96f;0xa8960702b46e76d04d02a03a50264f85;0xe45aa5f435e71d70f2f4b29559440678;0x611e7aa64a21851026a6bcf05edb8092;0x94f9a7b54d8efee781b505c4e31d3416;0x11bd78e73248668755e70ba1e482b2fc;0x5d71da11b3c10d27ea11190eede0fb01;0xd8350543cc0795473e43176bea7f7deb;0xc52a5d3e7210dba4573e3d93ff246938;0x406e826c0dd643c4836c33f6f8bbefd2;0x0ca2209a8c5f28643c9a2159f1d9a62f;0x89e6ffc8f399b004e8c82f3cf64620c5;0x369c90603371b461ee60756adb6f8e4a;0xb3d84f324cb72c013a327b0fdcf008a0;0xff14edc4cd3e47a185c469a0d592415d;0x7a503296b2f8dfc1519667c5d20dc7b7;0x674f6aeb0cef912238eb4d3dc756d364;0xe20bb5b973290942ecb94358c0c9558e;0xaec7174ff2a062e2534f51f7c9ab1c73;0x2b83c81d8d66fa82871d5f92ce349a99;0x1333c9dcb1b36a285fdce55b93f983ae;0x9677168ece75f2488b8eeb3e94660544;0xdabbb4784ffc99e83478f9919d044cb9;0x5fff6b2a303a0188e02af7f49a9bca53;0x42e033578e2d4f6b8957dd0c8fc0de80;0xc7a4ec05f1ebd70b5d05d369885f586a;0x8b684ef37062bcabe2f3c1c6813d1197;0x0e2c91a10fa424cb36a1cfa386a2977d;0xb156fe09cf4c20ae300995f5ab8b39f2;0x3412215bb08ab8cee45b9b90ac14bf18;0x78de83ad3103d36e5bad893fa576f6e5;0xfd9a5cff4ec54b0e8fff875aa2e9700f;0xe0850482f0d205ede682ada2b7b264dc;0x65c1dbd08f149d8d32d0a3c7b02de236;0x290d79260e9df62d8d26b168b94fabcb;0xac49a674715b6e4d5974bf0dbed02d21;0xb29ff6ceec2b2ab73fce0c72062cf189;0x37db299c93edb2d7eb9c021701b37763;0x7b178b6a1264d977546a10b808d13e9e;0xfe5354386da2411780381edd0f4eb874;0xe34c0c45d3b50ff4e94534251a15aca7;0x6608d317ac7397943d173a401d8a2a4d;0x2ac471e12dfafc3482e128ef14e863b0;0xaf80aeb3523c645456b3268a1377e55a;0x10fac11b92d46031501b7cdc3e5e4bd5;0x95be1e49ed12f851844972b939c1cd3f;0xd972bcbf6c9b93f13bbf601630a384c2;0x5c3663ed135d0b91efed6e73373c0228;0x41293b90ad4a45728690448b226716fb;0xc46de4c2d28cdd1252c24aee25f89011;0x88a146345305b6b2ed3458412c9ad9ec;0x0de599662cc32ed2396656242b055f06;0x355598a71016be78e1a7eced76c84631;0xb01147f56fd0261835f5e2887157c0db;0xfcdde503ee594db88a03f02778358926;0x79993a51919fd5d85e51fe427faa0fcc;0x6486622c2f889b3b372cd4ba6af11b1f;0xe1c2bd7e504e035be37edadf6d6e9df5;0xad0e1f88d1c768fb5c88c870640cd408;0x284ac0daae01f09b88dac615639352e2;0x9730af726ee9f4fe8e729c434ebafc6d;0x12747020112f6c9e5a20922649257a87;0x5eb8d2d690a6073ee5d680894047337a;0xdbfc0d84ef609f5e31848eec47d8b590;0xc6e355f95177d1bd58f9a4145283a143;0x43a78aab2eb149dd8cabaa71551c27a9;0x0f6b285daf38227d335db8de5c7e6e54;0x8a2ff70fd0feba1de70fb6bb5be1e8be;0x7fc82a1cd751c1ea401c0f8fe6275c3a;0xfa8cf54ea897598a944e01eae1b8dad0;0xb64057b8291e322a2bb81345e8da932d;0x330488ea56d8aa4affea1d20ef4515c7;0x2e1bd097e8cfe4a9969737d8fa1e0114;0xab5f0fc597097cc942c539bdfd8187fe;0xe793ad3316801769fd332b12f4e3ce03;0x62d7726169468f0929612577f37c48e9;0xddad1dc9a9ae8b6c2fc97f21de55e666;0x58e9c29bd668130cfb9b7144d9ca608c;0x1425606d57e178ac446d63ebd0a82971;0x9161bf3f2827e0cc903f6d8ed737af9b;0x8c7ee7429630ae2ff9424776c26cbb48;0x093a3810e9f6364f2d104913c5f33da2;0x45f69ae6687f5def92e65bbccc91745f;0xc0b245b417b9c58f46b455d9cb0ef2b5;0xf80244752b6c55259e75ef1096c3eb82;0x7d469b2754aacd454a27e175915c6d68;0x318a39d1d523a6e5f5d1f3da983e2495;0xb4cee683aae53e852183fdbf9fa1a27f;0xa9d1befe14f2706648fed7478afab6ac;0x2c9561ac6b34e8069cacd9228d653046;0x6059c35aeabd83a6235acb8d840779bb;0xe51d1c08957b1bc6f708c5e88398ff51;0x5a6773a055931fa3f1a09fbeaeb151de;0xdf23acf22a5587c325f291dba92ed734;0x93ef0e04abdcec639a048374a04c9ec9;0x16abd156d41a74034e568d11a7d31823;0x0bb4892b6a0d3ae0272ba7e9b2880cf0;0x8ef0567915cba280f379a98cb5178a1a;0xc23cf48f9442c9204c8fbb23bc75c3e7;0x47782bddeb84514098ddb546bbea450d;0xeb318da99adf3f0dc1a90a4b053a682c;0x6e7552fbe519a76d15fb042e02a5eec6;0x22b9f00d6490cccdaa0d16810bc7a73b;0xa7fd2f5f1b5654ad7e5f18e40c5821d1;0xbae27722a5411a4e1722321c19033502;0x3fa6a870da87822ec3703c791e9cb3e8;0x736a0a865b0ee98e7c862ed617fefa15;0xf62ed5d424c871eea8d420b310617cff;0x4954ba7ce420758bae7c7ae53d48d270;0xcc10652e9be6edeb7a2e74803ad7549a;0x80dcc7d81a6f864bc5d8662f33b51d67;0x0598188a65a91e2b118a684a342a9b8d;0x188740f7dbbe50c878f742b221718f5e;0x9dc39fa5a478c8a8aca54cd726ee09b4;0xd10f3d5325f1a30813535e782f8c4049;0x544be2015a373b68c701501d2813c6a3;0x6cfbe3c066e2abc21fc0ead475dedf94;0xe9bf3c92192433a2cb92e4b17241597e;0xa5739e6498ad58027464f61e7b231083;0x20374136e76bc062a036f87b7cbc9669;0x3d28194b597c8e81c94bd28369e782ba;0xb86cc61926ba16e11d19dce66e780450;0xf4a064efa7337d41a2efce49671a4dad;0x71e4bbbdd8f5e52176bdc02c6085cb47;0xce9ed415181de14470159a7a4dac65c8;0x4bda0b4767db7924a447941f4a33e322;0x0716a9b1e65212841bb186b04351aadf;0x825276e399948ae4cfe388d544ce2c35;0x9f4d2e9e2783c407a69ea22d519538e6;0x1a09f1cc58455c6772ccac48560abe0c;0x56c5533ad9cc37c7cd3abee75f68f7f1;0xd3818c68a60aafa71968b08258f7711b;0x2666517ba1a5d450be7b09b6e531c59f;0xa3228e29de634c306a2907d3e2ae4375;0xefee2cdf5fea2790d5df157cebcc0a88;0x6aaaf38d202cbff0018d1b19ec538c62;0x77b5abf09e3bf11368f031e1f90898b1;0xf2f174a2e1fd6973bca23f84fe971e5b;0xbe3dd654607402d303542d2bf7f557a6;0x3b7909061fb29ab3d706234ef06ad14c;0x840366aedf5a9ed6d1ae7918dd437fc3;0x0147b9fca09c06b605fc777ddadcf929;0x4d8b1b0a21156d16ba0a65d2d3beb0d4;0xc8cfc4585ed3f5766e586bb7d421363e;0xd5d09c25e0c4bb950725414fc17a22ed;0x509443779f0223f5d3774f2ac6e5a407;0x1c58e1811e8b48556c815d85cf87edfa;0x991c3ed3614dd035b8d353e0c8186b10;0xa1ac3f125d98409f6012e92995d57227;0x24e8e040225ed8ffb440e74c924af4cd;0x682442b6a3d7b35f0bb6f5e39b28bd30;0xed609de4dc112b3fdfe4fb869cb73bda;0xf07fc599620665dcb699d17e89ec2f09;0x753b1acb1dc0fdbc62cbdf1b8e73a9e3;0x39f7b83d9c49961cdd3dcdb48711e01e;0xbcb3676fe38f0e7c096fc3d1808e66f4;0x03c908c723670a190fc79987ada7c87b;0x868dd7955ca19279db9597e2aa384e91;0xca417563dd28f9d96463854da35a076c;0x4f05aa31a2ee61b9b0318b28a4c58186;0x521af24c1cf92f5ad94ca1d0b19e9555;0xd75e2d1e633fb73a0d1eafb5b60113bf;0x9b928fe8e2b6dc9ab2e8bd1abf635a42;0x1ed650ba9d7044fa66bab37fb8fcdca8];
   [0x00000000000000000000000000000000;0x10d1d39191fef301b1785801496b2da9;0x206165e1e13f2502a1f0b00292d65a91;0x30b0b67070c1d6031088e803dbbd7738;0x40c2ca01017e4a048123a304e76fb4e1;0x501319909080b905305bfb05ae049948;0x60a3afe0e0416f0620d3130675b9ee70;0x70727c7171bf9c0791ab4b073cd2c3d9;0x8047570202fc9408c14685080ddeab01;0x9096849393026709703edd0944b586a8;0xa02632e3e3c3b10a60b6350a9f08f190;0xb0f7e172723d420bd1ce6d0bd663dc39;0xc0859d030382de0c4065260ceab11fe0;0xd0544e92927c2d0df11d7e0da3da3249;0xe0e4f8e2e2bdfb0ee195960e78674571;0xf0352b737343080f50edce0f310c68d8;0xc38eae04043beb10418cc9101a7f9502;0xd35f7d9595c51811f0f491115314b8ab;0xe3efcbe5e504ce12e07c791288a9cf93;0xf33e187474fa3d1351042113c1c2e23a;0x834c64050545a114c0af6a14fd1021e3;0x939db79494bb521571d73215b47b0c4a;0xa32d01e4e47a8416615fda166fc67b72;0xb3fcd27575847717d027821726ad56db;0x43c9f90606c77f1880ca4c1817a13e03;0x53182a9797398c1931b214195eca13aa;0x63a89ce7e7f85a1a213afc1a85776492;0x73794f767606a91b9042a41bcc1c493b;0x030b330707b9351c01e9ef1cf0ce8ae2;0x13dae0969647c61db091b71db9a5a74b;0x236a56e6e686101ea0195f1e6218d073;0x33bb85777778e31f1161071f2b73fdda;0x45df9f080876152082db512034fee904;0x550e4c999988e62133a309217d95c4ad;0x65befae9e9493022232be122a628b395;0x756f297878b7c3239253b923ef439e3c;0x051d550909085f2403f8f224d3915de5;0x15cc869898f6ac25b280aa259afa704c;0x257c30e8e8377a26a208422641470774;0x35ade37979c9892713701a27082c2add;0xc598c80a0a8a8128439dd42839204205;0xd5491b9b9b747229f2e58c29704b6fac;0xe5f9adebebb5a42ae26d642aabf61894;0xf5287e7a7a4b572b53153c2be29d353d;0x855a020b0bf4cb2cc2be772cde4ff6e4;0x958bd19a9a0a382d73c62f2d9724db4d;0xa53b67eaeacbee2e634ec72e4c99ac75;0xb5eab47b7b351d2fd2369f2f05f281dc;0x8651310c0c4dfe30c35798302e817c06;0x9680e29d9db30d31722fc03167ea51af;0xa63054eded72db3262a72832bc572697;0xb6e1877c7c8c2833d3df7033f53c0b3e;0xc693fb0d0d33b43442743b34c9eec8e7;0xd642289c9ccd4735f30c63358085e54e;0xe6f29eecec0c9136e3848b365b389276;0xf6234d7d7df2623752fcd3371253bfdf;0x0616660e0eb16a3802111d38235fd707;0x16c7b59f9f4f9939b36945396a34faae;0x267703efef8e4f3aa3e1ad3ab1898d96;0x36a6d07e7e70bc3b1299f53bf8e2a03f;0x46d4ac0f0fcf203c8332be3cc43063e6;0x56057f9e9e31d33d324ae63d8d5b4e4f;0x66b5c9eeeef0053e22c20e3e56e63977;0x76641a7f7f0ef63f93ba563f1f8d14de;0x8a7dfd1010ec2a40c775a240683f1108;0x9aac2e818112d941760dfa4121543ca1;0xaa1c98f1f1d30f4266851242fae94b99;0xbacd4b60602dfc43d7fd4a43b3826630;0xcabf371111926044465601448f50a5e9;0xda6ee480806c9345f72e5945c63b8840;0xeade52f0f0ad4546e7a6b1461d86ff78;0xfa0f81616153b64756dee94754edd2d1;0x0a3aaa121210be480633274865e1ba09;0x1aeb798383ee4d49b74b7f492c8a97a0;0x2a5bcff3f32f9b4aa7c3974af737e098;0x3a8a1c6262d1684b16bbcf4bbe5ccd31;0x4af86013136ef44c8710844c828e0ee8;0x5a29b3828290074d3668dc4dcbe52341;0x6a9905f2f251d14e26e0344e10585479;0x7a48d66363af224f97986c4f593379d0;0x49f3531414d7c15086f96b507240840a;0x5922808585293251378133513b2ba9a3;0x699236f5f5e8e4522709db52e096de9b;0x7943e5646416175396718353a9fdf332;0x0931991515a98b5407dac854952f30eb;0x19e04a8484577855b6a29055dc441d42;0x2950fcf4f496ae56a62a785607f96a7a;0x39812f6565685d57175220574e9247d3;0xc9b40416162b555847bfee587f9e2f0b;0xd965d78787d5a659f6c7b65936f502a2;0xe9d561f7f714705ae64f5e5aed48759a;0xf904b26666ea835b5737065ba4235833;0x8976ce1717551f5cc69c4d5c98f19bea;0x99a71d8686abec5d77e4155dd19ab643;0xa917abf6f66a3a5e676cfd5e0a27c17b;0xb9c678676794c95fd614a55f434cecd2;0xcfa26218189a3f6045aef3605cc1f80c;0xdf73b1898964cc61f4d6ab6115aad5a5;0xefc307f9f9a51a62e45e4362ce17a29d;0xff12d468685be96355261b63877c8f34;0x8f60a81919e47564c48d5064bbae4ced;0x9fb17b88881a866575f50865f2c56144;0xaf01cdf8f8db5066657de0662978167c;0xbfd01e696925a367d405b86760133bd5;0x4fe5351a1a66ab6884e87668511f530d;0x5f34e68b8b98586935902e6918747ea4;0x6f8450fbfb598e6a2518c66ac3c9099c;0x7f55836a6aa77d6b94609e6b8aa22435;0x0f27ff1b1b18e16c05cbd56cb670e7ec;0x1ff62c8a8ae6126db4b38d6dff1bca45;0x2f469afafa27c46ea43b656e24a6bd7d;0x3f97496b6bd9376f15433d6f6dcd90d4;0x0c2ccc1c1ca1d47004223a7046be6d0e;0x1cfd1f8d8d5f2771b55a62710fd540a7;0x2c4da9fdfd9ef172a5d28a72d468379f;0x3c9c7a6c6c60027314aad2739d031a36;0x4cee061d1ddf9e7485019974a1d1d9ef;0x5c3fd58c8c216d753479c175e8baf446;0x6c8f63fcfce0bb7624f129763307837e;0x7c5eb06d6d1e4877958971777a6caed7;0x8c6b9b1e1e5d4078c564bf784b60c60f;0x9cba488f8fa3b379741ce779020beba6;0xac0afeffff62657a64940f7ad9b69c9e;0xbcdb2d6e6e9c967bd5ec577b90ddb137;0xcca9511f1f230a7c44471c7cac0f72ee;0xdc78828e8eddf97df53f447de5645f47;0xecc834fefe1c2f7ee5b7ac7e3ed9287f;0xfc19e76f6fe2dc7f54cff47f77b205d6;0xd7fa3920201b54804dea8780d07e2210;0xc72beab1b1e5a781fc92df8199150fb9;0xf79b5cc1c1247182ec1a378242a87881;0xe74a8f5050da82835d626f830bc35528;0x9738f32121651e84ccc92484371196f1;0x87e920b0b09bed857db17c857e7abb58;0xb75996c0c05a3b866d399486a5c7cc60;0xa788455151a4c887dc41cc87ecace1c9;0x57bd6e2222e7c0888cac0288dda08911;0x476cbdb3b31933893dd45a8994cba4b8;0x77dc0bc3c3d8e58a2d5cb28a4f76d380;0x670dd8525226168b9c24ea8b061dfe29;0x177fa42323998a8c0d8fa18c3acf3df0;0x07ae77b2b267798dbcf7f98d73a41059;0x371ec1c2c2a6af8eac7f118ea8196761;0x27cf125353585c8f1d07498fe1724ac8;0x147497242420bf900c664e90ca01b712;0x04a544b5b5de4c91bd1e1691836a9abb;0x3415f2c5c51f9a92ad96fe9258d7ed83;0x24c4215454e169931ceea69311bcc02a;0x54b65d25255ef5948d45ed942d6e03f3;0x44678eb4b4a006953c3db59564052e5a;0x74d738c4c461d0962cb55d96bfb85962;0x6406eb55559f23979dcd0597f6d374cb;0x9433c02626dc2b98cd20cb98c7df1c13;0x84e213b7b722d8997c5893998eb431ba;0xb452a5c7c7e30e9a6cd07b9a55094682;0xa4837656561dfd9bdda8239b1c626b2b;0xd4f10a2727a2619c4c03689c20b0a8f2;0xc420d9b6b65c929dfd7b309d69db855b;0xf4906fc6c69d449eedf3d89eb266f263;0xe441bc575763b79f5c8b809ffb0ddfca;0x9225a628286d41a0cf31d6a0e480cb14;0x82f475b9b993b2a17e498ea1adebe6bd;0xb244c3c9c95264a26ec166a276569185;0xa295105858ac97a3dfb93ea33f3dbc2c;0xd2e76c2929130ba44e1275a403ef7ff5;0xc236bfb8b8edf8a5ff6a2da54a84525c;0xf28609c8c82c2ea6efe2c5a691392564;0xe257da5959d2dda75e9a9da7d85208cd;0x1262f12a2a91d5a80e7753a8e95e6015;0x02b322bbbb6f26a9bf0f0ba9a0354dbc;0x320394cbcbaef0aaaf87e3aa7b883a84;0x22d2475a5a5003ab1effbbab32e3172d;0x52a03b2b2bef9fac8f54f0ac0e31d4f4;0x4271e8baba116cad3e2ca8ad475af95d;0x72c15ecacad0baae2ea440ae9ce78e65;0x62108d5b5b2e49af9fdc18afd58ca3cc;0x51ab082c2c56aab08ebd1fb0feff5e16;0x417adbbdbda859b13fc547b1b79473bf;0x71ca6dcdcd698fb22f4dafb26c290487;0x611bbe5c5c977cb39e35f7b32542292e;0x1169c22d2d28e0b40f9ebcb41990eaf7;0x01b811bcbcd613b5bee6e4b550fbc75e;0x3108a7cccc17c5b6ae6e0cb68b46b066;0x21d9745d5de936b71f1654b7c22d9dcf;0xd1ec5f2e2eaa3eb84ffb9ab8f321f517;0xc13d8cbfbf54cdb9fe83c2b9ba4ad8be;0xf18d3acfcf951bbaee0b2aba61f7af86;0xe15ce95e5e6be8bb5f7372bb289c822f;0x912e952f2fd474bcced839bc144e41f6;0x81ff46bebe2a87bd7fa061bd5d256c5f;0xb14ff0ceceeb51be6f2889be86981b67;0xa19e235f5f15a2bfde50d1bfcff336ce;0x5d87c43030f77ec08a9f25c0b8413318;0x4d5617a1a1098dc13be77dc1f12a1eb1;0x7de6a1d1d1c85bc22b6f95c22a976989;0x6d3772404036a8c39a17cdc363fc4420;0x1d450e31318934c40bbc86c45f2e87f9;0x0d94dda0a077c7c5bac4dec51645aa50;0x3d246bd0d0b611c6aa4c36c6cdf8dd68;0x2df5b8414148e2c71b346ec78493f0c1;0xddc09332320beac84bd9a0c8b59f9819;0xcd1140a3a3f519c9faa1f8c9fcf4b5b0;0xfda1f6d3d334cfcaea2910ca2749c288;0xed70254242ca3ccb5b5148cb6e22ef21;0x9d0259333375a0cccafa03cc52f02cf8;0x8dd38aa2a28b53cd7b825bcd1b9b0151;0xbd633cd2d24a85ce6b0ab3cec0267669;0xadb2ef4343b476cfda72ebcf894d5bc0;0x9e096a3434cc95d0cb13ecd0a23ea61a;0x8ed8b9a5a53266d17a6bb4d1eb558bb3;0xbe680fd5d5f3b0d26ae35cd230e8fc8b;0xaeb9dc44440d43d3db9b04d37983d122;0xdecba03535b2dfd44a304fd4455112fb;0xce1a73a4a44c2cd5fb4817d50c3a3f52;0xfeaac5d4d48dfad6ebc0ffd6d787486a;0xee7b1645457309d75ab8a7d79eec65c3;0x1e4e3d36363001d80a5569d8afe00d1b;0x0e9feea7a7cef2d9bb2d31d9e68b20b2;0x3e2f58d7d70f24daaba5d9da3d36578a;0x2efe8b4646f1d7db1add81db745d7a23;0x5e8cf737374e4bdc8b76cadc488fb9fa;0x4e5d24a6a6b0b8dd3a0e92dd01e49453;0x7eed92d6d6716ede2a867adeda59e36b;0x6e3c4147478f9ddf9bfe22df9332cec2;0x18585b3838816be0084474e08cbfda1c;0x088988a9a97f98e1b93c2ce1c5d4f7b5;0x38393ed9d9be4ee2a9b4c4e21e69808d;0x28e8ed484840bde318cc9ce35702ad24;0x589a913939ff21e48967d7e46bd06efd;0x484b42a8a801d2e5381f8fe522bb4354;0x78fbf4d8d8c004e6289767e6f906346c;0x682a2749493ef7e799ef3fe7b06d19c5;0x981f0c3a3a7dffe8c902f1e88161711d;0x88cedfabab830ce9787aa9e9c80a5cb4;0xb87e69dbdb42daea68f241ea13b72b8c;0xa8afba4a4abc29ebd98a19eb5adc0625;0xd8ddc63b3b03b5ec482152ec660ec5fc;0xc80c15aaaafd46edf9590aed2f65e855;0xf8bca3dada3c90eee9d1e2eef4d89f6d;0xe86d704b4bc263ef58a9baefbdb3b2c4;0xdbd6f53c3cba80f049c8bdf096c04f1e;0xcb0726adad4473f1f8b0e5f1dfab62b7;0xfbb790dddd85a5f2e8380df20416158f;0xeb66434c4c7b56f3594055f34d7d3826;0x9b143f3d3dc4caf4c8eb1ef471affbff;0x8bc5ecacac3a39f5799346f538c4d656;0xbb755adcdcfbeff6691baef6e379a16e;0xaba4894d4d051cf7d863f6f7aa128cc7;0x5b91a23e3e4614f8888e38f89b1ee41f;0x4b4071afafb8e7f939f660f9d275c9b6;0x7bf0c7dfdf7931fa297e88fa09c8be8e;0x6b21144e4e87c2fb9806d0fb40a39327;0x1b53683f3f385efc09ad9bfc7c7150fe;0x0b82bbaeaec6adfdb8d5c3fd351a7d57;0x3b320ddede077bfea85d2bfeeea70a6f;0x2be3de4f4ff988ff192573ffa7cc27c6];
   [0x00000000000000000000000000000000;0xc28d3164eceb0f2a379990c4f630b8f6;0x47d962c81b151e546ef1e34b2f60b32f;0x855453acf7fe117e5968738fd9500bd9;0x8e71c453362a3ca8dc2105965ec0a55e;0x4cfcf537dac13382ebb89552a8f01da8;0xc9a8a69b2d3f22fcb2d0e6dd71a01671;0x0b2597ffc1d42dd6854976198790ae87;0xdfe24ba66c5478937b420aefbc4389bc;0x1d6f7ac280bf77b94cdb9a2b4a73314a;0x983b296e774166c715b3e9a493233a93;0x5ab6180a9baa69ed222a796065138265;0x51938ff55a7e443ba7630f79e2832ce2;0x931ebe91b6954b1190fa9fbd14b39414;0x164aed3d416b5a6fc992ec32cde39fcd;0xd4c7dc59ad805545fe0b7cf63bd3273b;0x7d07968fd8a8f0e5f684141dbb86d1bb;0xbf8aa7eb3443ffcfc11d84d94db6694d;0x3adef447c3bdeeb19875f75694e66294;0xf853c5232f56e19bafec679262d6da62;0xf37652dcee82cc4d2aa5118be54674e5;0x31fb63b80269c3671d3c814f1376cc13;0xb4af3014f597d2194454f2c0ca26c7ca;0x76220170197cdd3373cd62043c167f3c;0xa2e5dd29b4fc88768dc61ef207c55807;0x6068ec4d5817875cba5f8e36f1f5e0f1;0xe53cbfe1afe99622e337fdb928a5eb28;0x27b18e8543029908d4ae6d7dde9553de;0x2c94197a82d6b4de51e71b645905fd59;0xee19281e6e3dbbf4667e8ba0af3545af;0x6b4d7bb299c3aa8a3f16f82f76654e76;0xa9c04ad67528a5a0088f68eb8055f680;0xfa0eefdd739323092fcb283ab5cf61b5;0x3883deb99f782c231852b8fe43ffd943;0xbdd78d1568863d5d413acb719aafd29a;0x7f5abc71846d327776a35bb56c9f6a6c;0x747f2b8e45b91fa1f3ea2daceb0fc4eb;0xb6f21aeaa952108bc473bd681d3f7c1d;0x33a649465eac01f59d1bcee7c46f77c4;0xf12b7822b2470edfaa825e23325fcf32;0x25eca47b1fc75b9a548922d5098ce809;0xe761951ff32c54b06310b211ffbc50ff;0x6235c6b304d245ce3a78c19e26ec5b26;0xa0b8f7d7e8394ae40de1515ad0dce3d0;0xab9d602829ed673288a82743574c4d57;0x6910514cc5066818bf31b787a17cf5a1;0xec4402e032f87966e659c408782cfe78;0x2ec93384de13764cd1c054cc8e1c468e;0x87097952ab3bd3ecd94f3c270e49b00e;0x4584483647d0dcc6eed6ace3f87908f8;0xc0d01b9ab02ecdb8b7bedf6c21290321;0x025d2afe5cc5c29280274fa8d719bbd7;0x0978bd019d11ef44056e39b150891550;0xcbf58c6571fae06e32f7a975a6b9ada6;0x4ea1dfc98604f1106b9fdafa7fe9a67f;0x8c2ceead6aeffe3a5c064a3e89d91e89;0x58eb32f4c76fab7fa20d36c8b20a39b2;0x9a6603902b84a4559594a60c443a8144;0x1f32503cdc7ab52bccfcd5839d6a8a9d;0xddbf61583091ba01fb6545476b5a326b;0xd69af6a7f14597d77e2c335eecca9cec;0x1417c7c31dae98fd49b5a39a1afa241a;0x9143946fea50898310ddd015c3aa2fc3;0x53cea50b06bb86a9274440d1359a9735;0x371c1d79e6e546125e555074a95dc2a9;0xf5912c1d0a0e493869ccc0b05f6d7a5f;0x70c57fb1fdf0584630a4b33f863d7186;0xb2484ed5111b576c073d23fb700dc970;0xb96dd92ad0cf7aba827455e2f79d67f7;0x7be0e84e3c247590b5edc52601addf01;0xfeb4bbe2cbda64eeec85b6a9d8fdd4d8;0x3c398a8627316bc4db1c266d2ecd6c2e;0xe8fe56df8ab13e8125175a9b151e4b15;0x2a7367bb665a31ab128eca5fe32ef3e3;0xaf27341791a420d54be6b9d03a7ef83a;0x6daa05737d4f2fff7c7f2914cc4e40cc;0x668f928cbc9b0229f9365f0d4bdeee4b;0xa402a3e850700d03ceafcfc9bdee56bd;0x2156f044a78e1c7d97c7bc4664be5d64;0xe3dbc1204b651357a05e2c82928ee592;0x4a1b8bf63e4db6f7a8d1446912db1312;0x8896ba92d2a6b9dd9f48d4ade4ebabe4;0x0dc2e93e2558a8a3c620a7223dbba03d;0xcf4fd85ac9b3a789f1b937e6cb8b18cb;0xc46a4fa508678a5f74f041ff4c1bb64c;0x06e77ec1e48c85754369d13bba2b0eba;0x83b32d6d1372940b1a01a2b4637b0563;0x413e1c09ff999b212d983270954bbd95;0x95f9c0505219ce64d3934e86ae989aae;0x5774f134bef2c14ee40ade4258a82258;0xd220a298490cd030bd62adcd81f82981;0x10ad93fca5e7df1a8afb3d0977c89177;0x1b8804036433f2cc0fb24b10f0583ff0;0xd905356788d8fde6382bdbd406688706;0x5c5166cb7f26ec986143a85bdf388cdf;0x9edc57af93cde3b256da389f29083429;0xcd12f2a49576651b719e784e1c92a31c;0x0f9fc3c0799d6a314607e88aeaa21bea;0x8acb906c8e637b4f1f6f9b0533f21033;0x4846a1086288746528f60bc1c5c2a8c5;0x436336f7a35c59b3adbf7dd842520642;0x81ee07934fb756999a26ed1cb462beb4;0x04ba543fb84947e7c34e9e936d32b56d;0xc637655b54a248cdf4d70e579b020d9b;0x12f0b902f9221d880adc72a1a0d12aa0;0xd07d886615c912a23d45e26556e19256;0x5529dbcae23703dc642d91ea8fb1998f;0x97a4eaae0edc0cf653b4012e79812179;0x9c817d51cf082120d6fd7737fe118ffe;0x5e0c4c3523e32e0ae164e7f308213708;0xdb581f99d41d3f74b80c947cd1713cd1;0x19d52efd38f6305e8f9504b827418427;0xb015642b4dde95fe871a6c53a71472a7;0x7298554fa1359ad4b083fc975124ca51;0xf7cc06e356cb8baae9eb8f188874c188;0x35413787ba208480de721fdc7e44797e;0x3e64a0787bf4a9565b3b69c5f9d4d7f9;0xfce9911c971fa67c6ca2f9010fe46f0f;0x79bdc2b060e1b70235ca8a8ed6b464d6;0xbb30f3d48c0ab82802531a4a2084dc20;0x6ff72f8d218aed6dfc5866bc1b57fb1b;0xad7a1ee9cd61e247cbc1f678ed6743ed;0x282e4d453a9ff33992a985f734374834;0xeaa37c21d674fc13a5301533c207f0c2;0xe186ebde17a0d1c52079632a45975e45;0x230bdabafb4bdeef17e0f3eeb3a7e6b3;0xa65f89160cb5cf914e8880616af7ed6a;0x64d2b872e05ec0bb791110a59cc7559c;0x6e383af20f098c24bcaaa0e891ba4791;0xacb50b96e3e2830e8b33302c678aff67;0x29e1583a141c9270d25b43a3bedaf4be;0xeb6c695ef8f79d5ae5c2d36748ea4c48;0xe049fea13923b08c608ba57ecf7ae2cf;0x22c4cfc5d5c8bfa6571235ba394a5a39;0xa7909c692236aed80e7a4635e01a51e0;0x651dad0dcedda1f239e3d6f1162ae916;0xb1da7154635df4b7c7e8aa072df9ce2d;0x735740308fb6fb9df0713ac3dbc976db;0xf603139c7848eae3a919494c02997d02;0x348e22f894a3e5c99e80d988f4a9c5f4;0x3fabb5075577c81f1bc9af9173396b73;0xfd268463b99cc7352c503f558509d385;0x7872d7cf4e62d64b75384cda5c59d85c;0xbaffe6aba289d96142a1dc1eaa6960aa;0x133fac7dd7a17cc14a2eb4f52a3c962a;0xd1b29d193b4a73eb7db72431dc0c2edc;0x54e6ceb5ccb4629524df57be055c2505;0x966bffd1205f6dbf1346c77af36c9df3;0x9d4e682ee18b4069960fb16374fc3374;0x5fc3594a0d604f43a19621a782cc8b82;0xda970ae6fa9e5e3df8fe52285b9c805b;0x181a3b8216755117cf67c2ecadac38ad;0xccdde7dbbbf50452316cbe1a967f1f96;0x0e50d6bf571e0b7806f52ede604fa760;0x8b048513a0e01a065f9d5d51b91facb9;0x4989b4774c0b152c6804cd954f2f144f;0x42ac23888ddf38faed4dbb8cc8bfbac8;0x802112ec613437d0dad42b483e8f023e;0x0575414096ca26ae83bc58c7e7df09e7;0xc7f870247a212984b425c80311efb111;0x9436d52f7c9aaf2d936188d224752624;0x56bbe44b9071a007a4f81816d2459ed2;0xd3efb7e7678fb179fd906b990b15950b;0x116286838b64be53ca09fb5dfd252dfd;0x1a47117c4ab093854f408d447ab5837a;0xd8ca2018a65b9caf78d91d808c853b8c;0x5d9e73b451a58dd121b16e0f55d53055;0x9f1342d0bd4e82fb1628fecba3e588a3;0x4bd49e8910ced7bee823823d9836af98;0x8959afedfc25d894dfba12f96e06176e;0x0c0dfc410bdbc9ea86d26176b7561cb7;0xce80cd25e730c6c0b14bf1b24166a441;0xc5a55ada26e4eb16340287abc6f60ac6;0x07286bbeca0fe43c039b176f30c6b230;0x827c38123df1f5425af364e0e996b9e9;0x40f10976d11afa686d6af4241fa6011f;0xe93143a0a4325fc865e59ccf9ff3f79f;0x2bbc72c448d950e2527c0c0b69c34f69;0xaee82168bf27419c0b147f84b09344b0;0x6c65100c53cc4eb63c8def4046a3fc46;0x674087f392186360b9c49959c13352c1;0xa5cdb6977ef36c4a8e5d099d3703ea37;0x2099e53b890d7d34d7357a12ee53e1ee;0xe214d45f65e6721ee0acead618635918;0x36d30806c866275b1ea7962023b07e23;0xf45e3962248d2871293e06e4d580c6d5;0x710a6aced373390f7056756b0cd0cd0c;0xb3875baa3f98362547cfe5affae075fa;0xb8a2cc55fe4c1bf3c28693b67d70db7d;0x7a2ffd3112a714d9f51f03728b40638b;0xff7bae9de55905a7ac7770fd52106852;0x3df69ff909b20a8d9beee039a420d0a4;0x5924278be9ecca36e2fff09c38e78538;0x9ba916ef0507c51cd5666058ced73dce;0x1efd4543f2f9d4628c0e13d717873617;0xdc7074271e12db48bb978313e1b78ee1;0xd755e3d8dfc6f69e3edef50a66272066;0x15d8d2bc332df9b4094765ce90179890;0x908c8110c4d3e8ca502f164149479349;0x5201b0742838e7e067b68685bf772bbf;0x86c66c2d85b8b2a599bdfa7384a40c84;0x444b5d496953bd8fae246ab77294b472;0xc11f0ee59eadacf1f74c1938abc4bfab;0x03923f817246a3dbc0d589fc5df4075d;0x08b7a87eb3928e0d459cffe5da64a9da;0xca3a991a5f79812772056f212c54112c;0x4f6ecab6a88790592b6d1caef5041af5;0x8de3fbd2446c9f731cf48c6a0334a203;0x2423b10431443ad3147be48183615483;0xe6ae8060ddaf35f923e274457551ec75;0x63fad3cc2a5124877a8a07caac01e7ac;0xa177e2a8c6ba2bad4d13970e5a315f5a;0xaa527557076e067bc85ae117dda1f1dd;0x68df4433eb850951ffc371d32b91492b;0xed8b179f1c7b182fa6ab025cf2c142f2;0x2f0626fbf09017059132929804f1fa04;0xfbc1faa25d1042406f39ee6e3f22dd3f;0x394ccbc6b1fb4d6a58a07eaac91265c9;0xbc18986a46055c1401c80d2510426e10;0x7e95a90eaaee533e36519de1e672d6e6;0x75b03ef16b3a7ee8b318ebf861e27861;0xb73d0f9587d171c284817b3c97d2c097;0x32695c39702f60bcdde908b34e82cb4e;0xf0e46d5d9cc46f96ea709877b8b273b8;0xa32ac8569a7fe93fcd34d8a68d28e48d;0x61a7f9327694e615faad48627b185c7b;0xe4f3aa9e816af76ba3c53beda24857a2;0x267e9bfa6d81f841945cab295478ef54;0x2d5b0c05ac55d5971115dd30d3e841d3;0xefd63d6140bedabd268c4df425d8f925;0x6a826ecdb740cbc37fe43e7bfc88f2fc;0xa80f5fa95babc4e9487daebf0ab84a0a;0x7cc883f0f62b91acb676d249316b6d31;0xbe45b2941ac09e8681ef428dc75bd5c7;0x3b11e138ed3e8ff8d88731021e0bde1e;0xf99cd05c01d580d2ef1ea1c6e83b66e8;0xf2b947a3c001ad046a57d7df6fabc86f;0x303476c72ceaa22e5dce471b999b7099;0xb560256bdb14b35004a6349440cb7b40;0x77ed140f37ffbc7a333fa450b6fbc3b6;0xde2d5ed942d719da3bb0ccbb36ae3536;0x1ca06fbdae3c16f00c295c7fc09e8dc0;0x99f43c1159c2078e55412ff019ce8619;0x5b790d75b52908a462d8bf34effe3eef;0x505c9a8a74fd2572e791c92d686e9068;0x92d1abee98162a58d00859e99e5e289e;0x1785f8426fe83b2689602a66470e2347;0xd508c9268303340cbef9baa2b13e9bb1;0x01cf157f2e83614940f2c6548aedbc8a;0xc342241bc2686e63776b56907cdd047c;0x461677b735967f1d2e03251fa58d0fa5;0x849b46d3d97d7037199ab5db53bdb753;0x8fbed12c18a95de19cd3c3c2d42d19d4;0x4d33e048f44252cbab4a5306221da122;0xc867b3e403bc43b5f2222089fb4daafb;0x0aea8280ef574c9fc5bbb04d0d7d120d];
   [0x00000000000000000000000000000000;0xc0b4a6ff392f546cafebe1d4d76364bf;0x43ab8f3d725ea8d89d15016b6dc6c8bd;0x831f29c24b71fcb432fee0bfbaa5ac02;0x8695dd7ae4bc9373f92a02d6da4f53b9;0x46217b85dd93c71f56c1e3020d2c3706;0xc53e524796e23bab643f03bdb7899b04;0x058af4b8afcd6fc7cbd4e26960eaffbb;0xcfe979f40bbbe5e63154046f779ea6b1;0x0f5ddf0b3294b18a9ebfe5bba0fdc20e;0x8c42f6c979e54d3eac4105041a586e0c;0x4cf6503640ca195203aae4d0cd3b0ab3;0x497ca48eef077695c87e06b9add1f508;0x89c80271d62822f96795e76d7ab291b7;0x0ad72bb39d59de4d556b07d2c0173db5;0xca638d4ca4768a21fa80e6061774590a;0x5d11f22b16b5090f62a808deeeff8fa1;0x9da554d42f9a5d63cd43e90a399ceb1e;0x1eba7d1664eba1d7ffbd09b58339471c;0xde0edbe95dc4f5bb5056e861545a23a3;0xdb842f51f2099a7c9b820a0834b0dc18;0x1b3089aecb26ce103469ebdce3d3b8a7;0x982fa06c805732a406970b63597614a5;0x589b0693b97866c8a97ceab78e15701a;0x92f88bdf1d0eece953fc0cb199612910;0x524c2d202421b885fc17ed654e024daf;0xd15304e26f504431cee90ddaf4a7e1ad;0x11e7a21d567f105d6102ec0e23c48512;0x146d56a5f9b27f9aaad60e67432e7aa9;0xd4d9f05ac09d2bf6053defb3944d1e16;0x57c6d9988becd74237c30f0c2ee8b214;0x97727f67b2c3832e9828eed8f98bd6ab;0xba2227562ca9121ec493107f1f3ddd81;0x7a9681a9158646726b78f1abc85eb93e;0xf989a86b5ef7bac65986111472fb153c;0x393d0e9467d8eeaaf66df0c0a5987183;0x3cb7fa2cc815816d3db912a9c5728e38;0xfc035cd3f13ad5019252f37d1211ea87;0x7f1c7511ba4b29b5a0ac13c2a8b44685;0xbfa8d3ee83647dd90f47f2167fd7223a;0x75cb5ea22712f7f8f5c7141068a37b30;0xb57ff85d1e3da3945a2cf5c4bfc01f8f;0x3660d19f554c5f2068d2157b0565b38d;0xf6d477606c630b4cc739f4afd206d732;0xf35e83d8c3ae648b0ced16c6b2ec2889;0x33ea2527fa8130e7a306f712658f4c36;0xb0f50ce5b1f0cc5391f817addf2ae034;0x7041aa1a88df983f3e13f6790849848b;0xe733d57d3a1c1b11a63b18a1f1c25220;0x2787738203334f7d09d0f97526a1369f;0xa4985a404842b3c93b2e19ca9c049a9d;0x642cfcbf716de7a594c5f81e4b67fe22;0x61a60807dea088625f111a772b8d0199;0xa112aef8e78fdc0ef0fafba3fcee6526;0x220d873aacfe20bac2041b1c464bc924;0xe2b921c595d174d66deffac89128ad9b;0x28daac8931a7fef7976f1cce865cf491;0xe86e0a760888aa9b3884fd1a513f902e;0x6b7123b443f9562f0a7a1da5eb9a3c2c;0xabc5854b7ad60243a591fc713cf95893;0xae4f71f3d51b6d846e451e185c13a728;0x6efbd70cec3439e8c1aeffcc8b70c397;0xede4fecea745c55cf3501f7331d56f95;0x2d5058319e6a91305cbbfea7e6b60b2a;0xb7444eac5891243c4be520fe3e7a79c1;0x77f0e85361be7050e40ec12ae9191d7e;0xf4efc1912acf8ce4d6f0219553bcb17c;0x345b676e13e0d888791bc04184dfd5c3;0x31d193d6bc2db74fb2cf2228e4352a78;0xf16535298502e3231d24c3fc33564ec7;0x727a1cebce731f972fda234389f3e2c5;0xb2ceba14f75c4bfb8031c2975e90867a;0x78ad3758532ac1da7ab1249149e4df70;0xb81991a76a0595b6d55ac5459e87bbcf;0x3b06b86521746902e7a425fa242217cd;0xfbb21e9a185b3d6e484fc42ef3417372;0xfe38ea22b79652a9839b264793ab8cc9;0x3e8c4cdd8eb906c52c70c79344c8e876;0xbd93651fc5c8fa711e8e272cfe6d4474;0x7d27c3e0fce7ae1db165c6f8290e20cb;0xea55bc874e242d33294d2820d085f660;0x2ae11a78770b795f86a6c9f407e692df;0xa9fe33ba3c7a85ebb458294bbd433edd;0x694a95450555d1871bb3c89f6a205a62;0x6cc061fdaa98be40d0672af60acaa5d9;0xac74c70293b7ea2c7f8ccb22dda9c166;0x2f6beec0d8c616984d722b9d670c6d64;0xefdf483fe1e942f4e299ca49b06f09db;0x25bcc573459fc8d518192c4fa71b50d1;0xe508638c7cb09cb9b7f2cd9b7078346e;0x66174a4e37c1600d850c2d24cadd986c;0xa6a3ecb10eee34612ae7ccf01dbefcd3;0xa3291809a1235ba6e1332e997d540368;0x639dbef6980c0fca4ed8cf4daa3767d7;0xe0829734d37df37e7c262ff21092cbd5;0x203631cbea52a712d3cdce26c7f1af6a;0x0d6669fa743836228f7630812147a440;0xcdd2cf054d17624e209dd155f624c0ff;0x4ecde6c706669efa126331ea4c816cfd;0x8e7940383f49ca96bd88d03e9be20842;0x8bf3b4809084a551765c3257fb08f7f9;0x4b47127fa9abf13dd9b7d3832c6b9346;0xc8583bbde2da0d89eb49333c96ce3f44;0x08ec9d42dbf559e544a2d2e841ad5bfb;0xc28f100e7f83d3c4be2234ee56d902f1;0x023bb6f146ac87a811c9d53a81ba664e;0x81249f330ddd7b1c233735853b1fca4c;0x419039cc34f22f708cdcd451ec7caef3;0x441acd749b3f40b7470836388c965148;0x84ae6b8ba21014dbe8e3d7ec5bf535f7;0x07b14249e961e86fda1d3753e15099f5;0xc705e4b6d04ebc0375f6d6873633fd4a;0x50779bd1628d3f2dedde385fcfb82be1;0x90c33d2e5ba26b414235d98b18db4f5e;0x13dc14ec10d397f570cb3934a27ee35c;0xd368b21329fcc399df20d8e0751d87e3;0xd6e246ab8631ac5e14f43a8915f77858;0x1656e054bf1ef832bb1fdb5dc2941ce7;0x9549c996f46f048689e13be27831b0e5;0x55fd6f69cd4050ea260ada36af52d45a;0x9f9ee2256936dacbdc8a3c30b8268d50;0x5f2a44da50198ea77361dde46f45e9ef;0xdc356d181b687213419f3d5bd5e045ed;0x1c81cbe72247267fee74dc8f02832152;0x190b3f5f8d8a49b825a03ee66269dee9;0xd9bf99a0b4a51dd48a4bdf32b50aba56;0x5aa0b062ffd4e160b8b53f8d0faf1654;0x9a14169dc6fbb50c175ede59d8cc72eb;0xad889c9bb0e148789609403f7cf4f241;0x6d3c3a6489ce1c1439e2a1ebab9796fe;0xee2313a6c2bfe0a00b1c415411323afc;0x2e97b559fb90b4cca4f7a080c6515e43;0x2b1d41e1545ddb0b6f2342e9a6bba1f8;0xeba9e71e6d728f67c0c8a33d71d8c547;0x68b6cedc260373d3f2364382cb7d6945;0xa80268231f2c27bf5ddda2561c1e0dfa;0x6261e56fbb5aad9ea75d44500b6a54f0;0xa2d543908275f9f208b6a584dc09304f;0x21ca6a52c90405463a48453b66ac9c4d;0xe17eccadf02b512a95a3a4efb1cff8f2;0xe4f438155fe63eed5e774686d1250749;0x24409eea66c96a81f19ca752064663f6;0xa75fb7282db89635c36247edbce3cff4;0x67eb11d71497c2596c89a6396b80ab4b;0xf0996eb0a6544177f4a148e1920b7de0;0x302dc84f9f7b151b5b4aa9354568195f;0xb332e18dd40ae9af69b4498affcdb55d;0x73864772ed25bdc3c65fa85e28aed1e2;0x760cb3ca42e8d2040d8b4a3748442e59;0xb6b815357bc78668a260abe39f274ae6;0x35a73cf730b67adc909e4b5c2582e6e4;0xf5139a0809992eb03f75aa88f2e1825b;0x3f701744adefa491c5f54c8ee595db51;0xffc4b1bb94c0f0fd6a1ead5a32f6bfee;0x7cdb9879dfb10c4958e04de5885313ec;0xbc6f3e86e69e5825f70bac315f307753;0xb9e5ca3e495337e23cdf4e583fda88e8;0x79516cc1707c638e9334af8ce8b9ec57;0xfa4e45033b0d9f3aa1ca4f33521c4055;0x3afae3fc0222cb560e21aee7857f24ea;0x17aabbcd9c485a66529a504063c92fc0;0xd71e1d32a5670e0afd71b194b4aa4b7f;0x540134f0ee16f2becf8f512b0e0fe77d;0x94b5920fd739a6d26064b0ffd96c83c2;0x913f66b778f4c915abb05296b9867c79;0x518bc04841db9d79045bb3426ee518c6;0xd294e98a0aaa61cd36a553fdd440b4c4;0x12204f75338535a1994eb2290323d07b;0xd843c23997f3bf8063ce542f14578971;0x18f764c6aedcebeccc25b5fbc334edce;0x9be84d04e5ad1758fedb5544799141cc;0x5b5cebfbdc8243345130b490aef22573;0x5ed61f43734f2cf39ae456f9ce18dac8;0x9e62b9bc4a60789f350fb72d197bbe77;0x1d7d907e0111842b07f15792a3de1275;0xddc93681383ed047a81ab64674bd76ca;0x4abb49e68afd53693032589e8d36a061;0x8a0fef19b3d207059fd9b94a5a55c4de;0x0910c6dbf8a3fbb1ad2759f5e0f068dc;0xc9a46024c18cafdd02ccb82137930c63;0xcc2e949c6e41c01ac9185a485779f3d8;0x0c9a3263576e947666f3bb9c801a9767;0x8f851ba11c1f68c2540d5b233abf3b65;0x4f31bd5e25303caefbe6baf7eddc5fda;0x855230128146b68f01665cf1faa806d0;0x45e696edb869e2e3ae8dbd252dcb626f;0xc6f9bf2ff3181e579c735d9a976ece6d;0x064d19d0ca374a3b3398bc4e400daad2;0x03c7ed6865fa25fcf84c5e2720e75569;0xc3734b975cd5719057a7bff3f78431d6;0x406c625517a48d2465595f4c4d219dd4;0x80d8c4aa2e8bd948cab2be989a42f96b;0x1accd237e8706c44ddec60c1428e8b80;0xda7874c8d15f38287207811595edef3f;0x59675d0a9a2ec49c40f961aa2f48433d;0x99d3fbf5a30190f0ef12807ef82b2782;0x9c590f4d0cccff3724c6621798c1d839;0x5ceda9b235e3ab5b8b2d83c34fa2bc86;0xdff280707e9257efb9d3637cf5071084;0x1f46268f47bd0383163882a82264743b;0xd525abc3e3cb89a2ecb864ae35102d31;0x15910d3cdae4ddce4353857ae273498e;0x968e24fe9195217a71ad65c558d6e58c;0x563a8201a8ba7516de4684118fb58133;0x53b076b907771ad115926678ef5f7e88;0x9304d0463e584ebdba7987ac383c1a37;0x101bf9847529b209888767138299b635;0xd0af5f7b4c06e665276c86c755fad28a;0x47dd201cfec5654bbf44681fac710421;0x876986e3c7ea312710af89cb7b12609e;0x0476af218c9bcd9322516974c1b7cc9c;0xc4c209deb5b499ff8dba88a016d4a823;0xc148fd661a79f638466e6ac9763e5798;0x01fc5b992356a254e9858b1da15d3327;0x82e3725b68275ee0db7b6ba21bf89f25;0x4257d4a451080a8c74908a76cc9bfb9a;0x883459e8f57e80ad8e106c70dbefa290;0x4880ff17cc51d4c121fb8da40c8cc62f;0xcb9fd6d58720287513056d1bb6296a2d;0x0b2b702abe0f7c19bcee8ccf614a0e92;0x0ea1849211c213de773a6ea601a0f129;0xce15226d28ed47b2d8d18f72d6c39596;0x4d0a0baf639cbb06ea2f6fcd6c663994;0x8dbead505ab3ef6a45c48e19bb055d2b;0xa0eef561c4d97e5a197f70be5db35601;0x605a539efdf62a36b694916a8ad032be;0xe3457a5cb687d682846a71d530759ebc;0x23f1dca38fa882ee2b819001e716fa03;0x267b281b2065ed29e055726887fc05b8;0xe6cf8ee4194ab9454fbe93bc509f6107;0x65d0a726523b45f17d407303ea3acd05;0xa56401d96b14119dd2ab92d73d59a9ba;0x6f078c95cf629bbc282b74d12a2df0b0;0xafb32a6af64dcfd087c09505fd4e940f;0x2cac03a8bd3c3364b53e75ba47eb380d;0xec18a557841367081ad5946e90885cb2;0xe99251ef2bde08cfd1017607f062a309;0x2926f71012f15ca37eea97d32701c7b6;0xaa39ded25980a0174c14776c9da46bb4;0x6a8d782d60aff47be3ff96b84ac70f0b;0xfdff074ad26c77557bd77860b34cd9a0;0x3d4ba1b5eb432339d43c99b4642fbd1f;0xbe548877a032df8de6c2790bde8a111d;0x7ee02e88991d8be1492998df09e975a2;0x7b6ada3036d0e42682fd7ab669038a19;0xbbde7ccf0fffb04a2d169b62be60eea6;0x38c1550d448e4cfe1fe87bdd04c542a4;0xf875f3f27da11892b0039a09d3a6261b;0x32167ebed9d792b34a837c0fc4d27f11;0xf2a2d841e0f8c6dfe5689ddb13b11bae;0x71bdf183ab893a6bd7967d64a914b7ac;0xb109577c92a66e07787d9cb07e77d313;0xb483a3c43d6b01c0b3a97ed91e9d2ca8;0x7437053b044455ac1c429f0dc9fe4817;0xf7282cf94f35a9182ebc7fb2735be415;0x379c8a06761afd7481579e66a43880aa];
   [0x00000000000000000000000000000000;0x0154307bef840809d4d5a38da6a1c10a;0x02a860f61dcb10126b6985d98f814114;0x03fc508df24f181bbfbc26542920801e;0x0493c02f3a552024d6d2c971ddc18228;0x05c7f054d5d1282d02076afc7b604322;0x063ba0d9279e3036bdbb4ca85240c33c;0x076f90a2c81a383f696eef25f4e10236;0x08e5435e74aa40486f6751e27941c750;0x09b173259b2e4841bbb2f26fdfe0065a;0x0a4d23a86961505a040ed43bf6c08644;0x0b1913d386e55853d0db77b65061474e;0x0c7683714eff606cb9b59893a4804578;0x0d22b30aa17b68656d603b1e02218472;0x0edee3875334707ed2dc1d4a2b01046c;0x0f8ad3fcbcb078770609bec78da0c566;0x100986bce8978090decea207f2824da0;0x115db6c7071388990a1b018a54238caa;0x12a1e64af55c9082b5a727de7d030cb4;0x13f5d6311ad8988b61728453dba2cdbe;0x149a4693d2c2a0b4081c6b762f43cf88;0x15ce76e83d46a8bddcc9c8fb89e20e82;0x16322665cf09b0a66375eeafa0c28e9c;0x1766161e208db8afb7a04d2206634f96;0x18ecc5e29c3dc0d8b1a9f3e58bc38af0;0x19b8f59973b9c8d1657c50682d624bfa;0x1a44a51481f6d0cadac0763c0442cbe4;0x1b10956f6e72d8c30e15d5b1a2e30aee;0x1c7f05cda668e0fc677b3a94560208d8;0x1d2b35b649ece8f5b3ae9919f0a3c9d2;0x1ed7653bbba3f0ee0c12bf4dd98349cc;0x1f8355405427f8e7d8c71cc07f2288c6;0x2012cfbb13edc3e37f5f870e27c79a83;0x2146ffc0fc69cbeaab8a248381665b89;0x22baaf4d0e26d3f1143602d7a846db97;0x23ee9f36e1a2dbf8c0e3a15a0ee71a9d;0x24810f9429b8e3c7a98d4e7ffa0618ab;0x25d53fefc63cebce7d58edf25ca7d9a1;0x26296f623473f3d5c2e4cba6758759bf;0x277d5f19dbf7fbdc1631682bd32698b5;0x28f78ce5674783ab1038d6ec5e865dd3;0x29a3bc9e88c38ba2c4ed7561f8279cd9;0x2a5fec137a8c93b97b515335d1071cc7;0x2b0bdc6895089bb0af84f0b877a6ddcd;0x2c644cca5d12a38fc6ea1f9d8347dffb;0x2d307cb1b296ab86123fbc1025e61ef1;0x2ecc2c3c40d9b39dad839a440cc69eef;0x2f981c47af5dbb94795639c9aa675fe5;0x301b4907fb7a4373a1912509d545d723;0x314f797c14fe4b7a7544868473e41629;0x32b329f1e6b15361caf8a0d05ac49637;0x33e7198a09355b681e2d035dfc65573d;0x34888928c12f63577743ec780884550b;0x35dcb9532eab6b5ea3964ff5ae259401;0x3620e9dedce473451c2a69a18705141f;0x3774d9a533607b4cc8ffca2c21a4d515;0x38fe0a598fd0033bcef674ebac041073;0x39aa3a2260540b321a23d7660aa5d179;0x3a566aaf921b1329a59ff13223855167;0x3b025ad47d9f1b20714a52bf8524906d;0x3c6dca76b585231f1824bd9a71c5925b;0x3d39fa0d5a012b16ccf11e17d7645351;0x3ec5aa80a84e330d734d3843fe44d34f;0x3f919afb47ca3b04a7989bce58e51245;0x40245db526194505febecd1c4e4df7c5;0x41706dcec99d4d0c2a6b6e91e8ec36cf;0x428c3d433bd2551795d748c5c1ccb6d1;0x43d80d38d4565d1e4102eb48676d77db;0x44b79d9a1c4c6521286c046d938c75ed;0x45e3ade1f3c86d28fcb9a7e0352db4e7;0x461ffd6c01877533430581b41c0d34f9;0x474bcd17ee037d3a97d02239baacf5f3;0x48c11eeb52b3054d91d99cfe370c3095;0x49952e90bd370d44450c3f7391adf19f;0x4a697e1d4f78155ffab01927b88d7181;0x4b3d4e66a0fc1d562e65baaa1e2cb08b;0x4c52dec468e62569470b558feacdb2bd;0x4d06eebf87622d6093def6024c6c73b7;0x4efabe32752d357b2c62d056654cf3a9;0x4fae8e499aa93d72f8b773dbc3ed32a3;0x502ddb09ce8ec59520706f1bbccfba65;0x5179eb72210acd9cf4a5cc961a6e7b6f;0x5285bbffd345d5874b19eac2334efb71;0x53d18b843cc1dd8e9fcc494f95ef3a7b;0x54be1b26f4dbe5b1f6a2a66a610e384d;0x55ea2b5d1b5fedb8227705e7c7aff947;0x56167bd0e910f5a39dcb23b3ee8f7959;0x57424bab0694fdaa491e803e482eb853;0x58c89857ba2485dd4f173ef9c58e7d35;0x599ca82c55a08dd49bc29d74632fbc3f;0x5a60f8a1a7ef95cf247ebb204a0f3c21;0x5b34c8da486b9dc6f0ab18adecaefd2b;0x5c5b58788071a5f999c5f788184fff1d;0x5d0f68036ff5adf04d105405beee3e17;0x5ef3388e9dbab5ebf2ac725197cebe09;0x5fa708f5723ebde22679d1dc316f7f03;0x6036920e35f486e681e14a12698a6d46;0x6162a275da708eef5534e99fcf2bac4c;0x629ef2f8283f96f4ea88cfcbe60b2c52;0x63cac283c7bb9efd3e5d6c4640aaed58;0x64a552210fa1a6c257338363b44bef6e;0x65f1625ae025aecb83e620ee12ea2e64;0x660d32d7126ab6d03c5a06ba3bcaae7a;0x675902acfdeebed9e88fa5379d6b6f70;0x68d3d150415ec6aeee861bf010cbaa16;0x6987e12baedacea73a53b87db66a6b1c;0x6a7bb1a65c95d6bc85ef9e299f4aeb02;0x6b2f81ddb311deb5513a3da439eb2a08;0x6c40117f7b0be68a3854d281cd0a283e;0x6d142104948fee83ec81710c6babe934;0x6ee8718966c0f698533d5758428b692a;0x6fbc41f28944fe9187e8f4d5e42aa820;0x703f14b2dd6306765f2fe8159b0820e6;0x716b24c932e70e7f8bfa4b983da9e1ec;0x72977444c0a8166434466dcc148961f2;0x73c3443f2f2c1e6de093ce41b228a0f8;0x74acd49de736265289fd216446c9a2ce;0x75f8e4e608b22e5b5d2882e9e06863c4;0x7604b46bfafd3640e294a4bdc948e3da;0x7750841015793e49364107306fe922d0;0x78da57eca9c9463e3048b9f7e249e7b6;0x798e6797464d4e37e49d1a7a44e826bc;0x7a72371ab402562c5b213c2e6dc8a6a2;0x7b2607615b865e258ff49fa3cb6967a8;0x7c4997c3939c661ae69a70863f88659e;0x7d1da7b87c186e13324fd30b9929a494;0x7ee1f7358e5776088df3f55fb009248a;0x7fb5c74e61d37e01592656d216a8e580;0x8048baa94c328a0a3fbf59389c9a2d49;0x811c8ad2a3b68203eb6afab53a3bec43;0x82e0da5f51f99a1854d6dce1131b6c5d;0x83b4ea24be7d921180037f6cb5baad57;0x84db7a867667aa2ee96d9049415baf61;0x858f4afd99e3a2273db833c4e7fa6e6b;0x86731a706bacba3c82041590cedaee75;0x87272a0b8428b23556d1b61d687b2f7f;0x88adf9f73898ca4250d808dae5dbea19;0x89f9c98cd71cc24b840dab57437a2b13;0x8a0599012553da503bb18d036a5aab0d;0x8b51a97acad7d259ef642e8eccfb6a07;0x8c3e39d802cdea66860ac1ab381a6831;0x8d6a09a3ed49e26f52df62269ebba93b;0x8e96592e1f06fa74ed634472b79b2925;0x8fc26955f082f27d39b6e7ff113ae82f;0x90413c15a4a50a9ae171fb3f6e1860e9;0x91150c6e4b21029335a458b2c8b9a1e3;0x92e95ce3b96e1a888a187ee6e19921fd;0x93bd6c9856ea12815ecddd6b4738e0f7;0x94d2fc3a9ef02abe37a3324eb3d9e2c1;0x9586cc41717422b7e37691c3157823cb;0x967a9ccc833b3aac5ccab7973c58a3d5;0x972eacb76cbf32a5881f141a9af962df;0x98a47f4bd00f4ad28e16aadd1759a7b9;0x99f04f303f8b42db5ac30950b1f866b3;0x9a0c1fbdcdc45ac0e57f2f0498d8e6ad;0x9b582fc6224052c931aa8c893e7927a7;0x9c37bf64ea5a6af658c463acca982591;0x9d638f1f05de62ff8c11c0216c39e49b;0x9e9fdf92f7917ae433ade67545196485;0x9fcbefe9181572ede77845f8e3b8a58f;0xa05a75125fdf49e940e0de36bb5db7ca;0xa10e4569b05b41e094357dbb1dfc76c0;0xa2f215e4421459fb2b895bef34dcf6de;0xa3a6259fad9051f2ff5cf862927d37d4;0xa4c9b53d658a69cd96321747669c35e2;0xa59d85468a0e61c442e7b4cac03df4e8;0xa661d5cb784179dffd5b929ee91d74f6;0xa735e5b097c571d6298e31134fbcb5fc;0xa8bf364c2b7509a12f878fd4c21c709a;0xa9eb0637c4f101a8fb522c5964bdb190;0xaa1756ba36be19b344ee0a0d4d9d318e;0xab4366c1d93a11ba903ba980eb3cf084;0xac2cf66311202985f95546a51fddf2b2;0xad78c618fea4218c2d80e528b97c33b8;0xae8496950ceb3997923cc37c905cb3a6;0xafd0a6eee36f319e46e960f136fd72ac;0xb053f3aeb748c9799e2e7c3149dffa6a;0xb107c3d558ccc1704afbdfbcef7e3b60;0xb2fb9358aa83d96bf547f9e8c65ebb7e;0xb3afa3234507d16221925a6560ff7a74;0xb4c033818d1de95d48fcb540941e7842;0xb59403fa6299e1549c2916cd32bfb948;0xb668537790d6f94f239530991b9f3956;0xb73c630c7f52f146f7409314bd3ef85c;0xb8b6b0f0c3e28931f1492dd3309e3d3a;0xb9e2808b2c668138259c8e5e963ffc30;0xba1ed006de2999239a20a80abf1f7c2e;0xbb4ae07d31ad912a4ef50b8719bebd24;0xbc2570dff9b7a915279be4a2ed5fbf12;0xbd7140a41633a11cf34e472f4bfe7e18;0xbe8d1029e47cb9074cf2617b62defe06;0xbfd920520bf8b10e9827c2f6c47f3f0c;0xc06ce71c6a2bcf0fc1019424d2d7da8c;0xc138d76785afc70615d437a974761b86;0xc2c487ea77e0df1daa6811fd5d569b98;0xc390b7919864d7147ebdb270fbf75a92;0xc4ff2733507eef2b17d35d550f1658a4;0xc5ab1748bffae722c306fed8a9b799ae;0xc65747c54db5ff397cbad88c809719b0;0xc70377bea231f730a86f7b012636d8ba;0xc889a4421e818f47ae66c5c6ab961ddc;0xc9dd9439f105874e7ab3664b0d37dcd6;0xca21c4b4034a9f55c50f401f24175cc8;0xcb75f4cfecce975c11dae39282b69dc2;0xcc1a646d24d4af6378b40cb776579ff4;0xcd4e5416cb50a76aac61af3ad0f65efe;0xceb2049b391fbf7113dd896ef9d6dee0;0xcfe634e0d69bb778c7082ae35f771fea;0xd06561a082bc4f9f1fcf36232055972c;0xd13151db6d384796cb1a95ae86f45626;0xd2cd01569f775f8d74a6b3faafd4d638;0xd399312d70f35784a073107709751732;0xd4f6a18fb8e96fbbc91dff52fd941504;0xd5a291f4576d67b21dc85cdf5b35d40e;0xd65ec179a5227fa9a2747a8b72155410;0xd70af1024aa677a076a1d906d4b4951a;0xd88022fef6160fd770a867c15914507c;0xd9d41285199207dea47dc44cffb59176;0xda284208ebdd1fc51bc1e218d6951168;0xdb7c7273045917cccf1441957034d062;0xdc13e2d1cc432ff3a67aaeb084d5d254;0xdd47d2aa23c727fa72af0d3d2274135e;0xdebb8227d1883fe1cd132b690b549340;0xdfefb25c3e0c37e819c688e4adf5524a;0xe07e28a779c60cecbe5e132af510400f;0xe12a18dc964204e56a8bb0a753b18105;0xe2d64851640d1cfed53796f37a91011b;0xe382782a8b8914f701e2357edc30c011;0xe4ede88843932cc8688cda5b28d1c227;0xe5b9d8f3ac1724c1bc5979d68e70032d;0xe645887e5e583cda03e55f82a7508333;0xe711b805b1dc34d3d730fc0f01f14239;0xe89b6bf90d6c4ca4d13942c88c51875f;0xe9cf5b82e2e844ad05ece1452af04655;0xea330b0f10a75cb6ba50c71103d0c64b;0xeb673b74ff2354bf6e85649ca5710741;0xec08abd637396c8007eb8bb951900577;0xed5c9badd8bd6489d33e2834f731c47d;0xeea0cb202af27c926c820e60de114463;0xeff4fb5bc576749bb857aded78b08569;0xf077ae1b91518c7c6090b12d07920daf;0xf1239e607ed58475b44512a0a133cca5;0xf2dfceed8c9a9c6e0bf934f488134cbb;0xf38bfe96631e9467df2c97792eb28db1;0xf4e46e34ab04ac58b642785cda538f87;0xf5b05e4f4480a4516297dbd17cf24e8d;0xf64c0ec2b6cfbc4add2bfd8555d2ce93;0xf7183eb9594bb44309fe5e08f3730f99;0xf892ed45e5fbcc340ff7e0cf7ed3caff;0xf9c6dd3e0a7fc43ddb224342d8720bf5;0xfa3a8db3f830dc26649e6516f1528beb;0xfb6ebdc817b4d42fb04bc69b57f34ae1;0xfc012d6adfaeec10d92529bea31248d7;0xfd551d11302ae4190df08a3305b389dd;0xfea94d9cc265fc02b24cac672c9309c3;0xfffd7de72de1f40b66990fea8a32c8c9];
   [0x00000000000000000000000000000000;0xfbdee0af10c9f649bee76ea46a2b9cf3;0x357f039d20512f92bf0ddc8bd456fb25;0xcea1e3323098d9db01eab22fbe7d67d6;0x6afe06f940a25ee7bd1a7bd56bac354a;0x9120e656506ba8ae03fd15710187a9b9;0x5f81056460f371750217a75ebfface6f;0xa45fe5cb703a873cbcf0c9fad5d1529c;0xd43f0c318087bc0db934f669d69b6a94;0x2fe1ec9e904e4a4407d398cdbcb0f667;0xe1400faca0d6939f06392ae202cd91b1;0x1a9eef03b01f65d6b8de444668e60d42;0xbec10ac8c025e2ea042e8dbcbd375fde;0x451fea67d0ec14a3bac9e318d71cc32d;0x8bbe0955e074cd78bb2351376961a4fb;0x7060e9faf0bd3b3105c43f93034a3808;0x6b7e1862c3cdbb1ab1682fd26ff5d4eb;0x90a0f8cdd3044d530f8f417605de4818;0x5e011bffe39c94880e65f359bba32fce;0xa5dffb50f35562c1b0829dfdd188b33d;0x01801e9b836fe5fd0c7254070459e1a1;0xfa5efe3493a613b4b2953aa36e727d52;0x34ff1d06a33eca6fb37f888cd00f1a84;0xcf21fda9b3f73c260d98e628ba248677;0xbf411453434a0717085cd9bbb96ebe7f;0x449ff4fc5383f15eb6bbb71fd345228c;0x8a3e17ce631b2885b75105306d38455a;0x71e0f76173d2decc09b66b940713d9a9;0xd5bf12aa03e859f0b546a26ed2c28b35;0x2e61f2051321afb90ba1cccab8e917c6;0xe0c0113723b976620a4b7ee506947010;0x1b1ef1983370802bb4ac10416cbfece3;0xd6fc30c44559b534a1d05e67de296b15;0x2d22d06b5590437d1f3730c3b402f7e6;0xe383335965089aa61edd82ec0a7f9030;0x185dd3f675c16cefa03aec4860540cc3;0xbc02363d05fbebd31cca25b2b5855e5f;0x47dcd69215321d9aa22d4b16dfaec2ac;0x897d35a025aac441a3c7f93961d3a57a;0x72a3d50f356332081d20979d0bf83989;0x02c33cf5c5de093918e4a80e08b20181;0xf91ddc5ad517ff70a603c6aa62999d72;0x37bc3f68e58f26aba7e97485dce4faa4;0xcc62dfc7f546d0e2190e1a21b6cf6657;0x683d3a0c857c57dea5fed3db631e34cb;0x93e3daa395b5a1971b19bd7f0935a838;0x5d423991a52d784c1af30f50b748cfee;0xa69cd93eb5e48e05a41461f4dd63531d;0xbd8228a686940e2e10b871b5b1dcbffe;0x465cc809965df867ae5f1f11dbf7230d;0x88fd2b3ba6c521bcafb5ad3e658a44db;0x7323cb94b60cd7f51152c39a0fa1d828;0xd77c2e5fc63650c9ada20a60da708ab4;0x2ca2cef0d6ffa680134564c4b05b1647;0xe2032dc2e6677f5b12afd6eb0e267191;0x19ddcd6df6ae8912ac48b84f640ded62;0x69bd24970613b223a98c87dc6747d56a;0x9263c43816da446a176be9780d6c4999;0x5cc2270a26429db116815b57b3112e4f;0xa71cc7a5368b6bf8a86635f3d93ab2bc;0x0343226e46b1ecc41496fc090cebe020;0xf89dc2c156781a8daa7192ad66c07cd3;0x363c21f366e0c356ab9b2082d8bd1b05;0xcde2c15c7629351f157c4e26b29687f6;0x6f3b604b8ab2a9688163bcce7f52d62a;0x94e580e49a7b5f213f84d26a15794ad9;0x5a4463d6aae386fa3e6e6045ab042d0f;0xa19a8379ba2a70b380890ee1c12fb1fc;0x05c566b2ca10f78f3c79c71b14fee360;0xfe1b861ddad901c6829ea9bf7ed57f93;0x30ba652fea41d81d83741b90c0a81845;0xcb648580fa882e543d937534aa8384b6;0xbb046c7a0a35156538574aa7a9c9bcbe;0x40da8cd51afce32c86b02403c3e2204d;0x8e7b6fe72a643af7875a962c7d9f479b;0x75a58f483aadccbe39bdf88817b4db68;0xd1fa6a834a974b82854d3172c26589f4;0x2a248a2c5a5ebdcb3baa5fd6a84e1507;0xe485691e6ac664103a40edf9163372d1;0x1f5b89b17a0f925984a7835d7c18ee22;0x04457829497f1272300b931c10a702c1;0xff9b988659b6e43b8eecfdb87a8c9e32;0x313a7bb4692e3de08f064f97c4f1f9e4;0xcae49b1b79e7cba931e12133aeda6517;0x6ebb7ed009dd4c958d11e8c97b0b378b;0x95659e7f1914badc33f6866d1120ab78;0x5bc47d4d298c6307321c3442af5dccae;0xa01a9de23945954e8cfb5ae6c576505d;0xd07a7418c9f8ae7f893f6575c63c6855;0x2ba494b7d931583637d80bd1ac17f4a6;0xe5057785e9a981ed3632b9fe126a9370;0x1edb972af96077a488d5d75a78410f83;0xba8472e1895af09834251ea0ad905d1f;0x415a924e999306d18ac27004c7bbc1ec;0x8ffb717ca90bdf0a8b28c22b79c6a63a;0x742591d3b9c2294335cfac8f13ed3ac9;0xb9c7508fcfeb1c5c20b3e2a9a17bbd3f;0x4219b020df22ea159e548c0dcb5021cc;0x8cb85312efba33ce9fbe3e22752d461a;0x7766b3bdff73c587215950861f06dae9;0xd33956768f4942bb9da9997ccad78875;0x28e7b6d99f80b4f2234ef7d8a0fc1486;0xe64655ebaf186d2922a445f71e817350;0x1d98b544bfd19b609c432b5374aaefa3;0x6df85cbe4f6ca051998714c077e0d7ab;0x9626bc115fa5561827607a641dcb4b58;0x58875f236f3d8fc3268ac84ba3b62c8e;0xa359bf8c7ff4798a986da6efc99db07d;0x07065a470fcefeb6249d6f151c4ce2e1;0xfcd8bae81f0708ff9a7a01b176677e12;0x327959da2f9fd1249b90b39ec81a19c4;0xc9a7b9753f56276d2577dd3aa2318537;0xd2b948ed0c26a74691dbcd7bce8e69d4;0x2967a8421cef510f2f3ca3dfa4a5f527;0xe7c64b702c7788d42ed611f01ad892f1;0x1c18abdf3cbe7e9d90317f5470f30e02;0xb8474e144c84f9a12cc1b6aea5225c9e;0x4399aebb5c4d0fe89226d80acf09c06d;0x8d384d896cd5d63393cc6a257174a7bb;0x76e6ad267c1c207a2d2b04811b5f3b48;0x068644dc8ca11b4b28ef3b1218150340;0xfd58a4739c68ed02960855b6723e9fb3;0x33f94741acf034d997e2e799cc43f865;0xc827a7eebc39c2902905893da6686496;0x6c784225cc0345ac95f540c773b9360a;0x97a6a28adccab3e52b122e631992aaf9;0x590741b8ec526a3e2af89c4ca7efcd2f;0xa2d9a117fc9b9c77941ff2e8cdc451dc;0xde76c096d7a791d0c1c6bb5ffea46f54;0x25a82039c76e67997f21d5fb948ff3a7;0xeb09c30bf7f6be427ecb67d42af29471;0x10d723a4e73f480bc02c097040d90882;0xb488c66f9705cf377cdcc08a95085a1e;0x4f5626c087cc397ec23bae2eff23c6ed;0x81f7c5f2b754e0a5c3d11c01415ea13b;0x7a29255da79d16ec7d3672a52b753dc8;0x0a49cca757202ddd78f24d36283f05c0;0xf1972c0847e9db94c615239242149933;0x3f36cf3a7771024fc7ff91bdfc69fee5;0xc4e82f9567b8f4067918ff1996426216;0x60b7ca5e1782733ac5e836e34393308a;0x9b692af1074b85737b0f584729b8ac79;0x55c8c9c337d35ca87ae5ea6897c5cbaf;0xae16296c271aaae1c40284ccfdee575c;0xb508d8f4146a2aca70ae948d9151bbbf;0x4ed6385b04a3dc83ce49fa29fb7a274c;0x8077db69343b0558cfa348064507409a;0x7ba93bc624f2f311714426a22f2cdc69;0xdff6de0d54c8742dcdb4ef58fafd8ef5;0x24283ea244018264735381fc90d61206;0xea89dd9074995bbf72b933d32eab75d0;0x11573d3f6450adf6cc5e5d774480e923;0x6137d4c594ed96c7c99a62e447cad12b;0x9ae9346a8424608e777d0c402de14dd8;0x5448d758b4bcb9557697be6f939c2a0e;0xaf9637f7a4754f1cc870d0cbf9b7b6fd;0x0bc9d23cd44fc820748019312c66e461;0xf0173293c4863e69ca677795464d7892;0x3eb6d1a1f41ee7b2cb8dc5baf8301f44;0xc568310ee4d711fb756aab1e921b83b7;0x088af05292fe24e46016e538208d0441;0xf35410fd8237d2addef18b9c4aa698b2;0x3df5f3cfb2af0b76df1b39b3f4dbff64;0xc62b1360a266fd3f61fc57179ef06397;0x6274f6abd25c7a03dd0c9eed4b21310b;0x99aa1604c2958c4a63ebf049210aadf8;0x570bf536f20d5591620142669f77ca2e;0xacd51599e2c4a3d8dce62cc2f55c56dd;0xdcb5fc63127998e9d9221351f6166ed5;0x276b1ccc02b06ea067c57df59c3df226;0xe9cafffe3228b77b662fcfda224095f0;0x12141f5122e14132d8c8a17e486b0903;0xb64bfa9a52dbc60e643868849dba5b9f;0x4d951a3542123047dadf0620f791c76c;0x8334f907728ae99cdb35b40f49eca0ba;0x78ea19a862431fd565d2daab23c73c49;0x63f4e83051339ffed17ecaea4f78d0aa;0x982a089f41fa69b76f99a44e25534c59;0x568bebad7162b06c6e7316619b2e2b8f;0xad550b0261ab4625d09478c5f105b77c;0x090aeec91191c1196c64b13f24d4e5e0;0xf2d40e6601583750d283df9b4eff7913;0x3c75ed5431c0ee8bd3696db4f0821ec5;0xc7ab0dfb210918c26d8e03109aa98236;0xb7cbe401d1b423f3684a3c8399e3ba3e;0x4c1504aec17dd5bad6ad5227f3c826cd;0x82b4e79cf1e50c61d747e0084db5411b;0x796a0733e12cfa2869a08eac279edde8;0xdd35e2f891167d14d5504756f24f8f74;0x26eb025781df8b5d6bb729f298641387;0xe84ae165b14752866a5d9bdd26197451;0x139401caa18ea4cfd4baf5794c32e8a2;0xb14da0dd5d1538b840a5079181f6b97e;0x4a9340724ddccef1fe426935ebdd258d;0x8432a3407d44172affa8db1a55a0425b;0x7fec43ef6d8de163414fb5be3f8bdea8;0xdbb3a6241db7665ffdbf7c44ea5a8c34;0x206d468b0d7e9016435812e0807110c7;0xeecca5b93de649cd42b2a0cf3e0c7711;0x151245162d2fbf84fc55ce6b5427ebe2;0x6572acecdd9284b5f991f1f8576dd3ea;0x9eac4c43cd5b72fc47769f5c3d464f19;0x500daf71fdc3ab27469c2d73833b28cf;0xabd34fdeed0a5d6ef87b43d7e910b43c;0x0f8caa159d30da52448b8a2d3cc1e6a0;0xf4524aba8df92c1bfa6ce48956ea7a53;0x3af3a988bd61f5c0fb8656a6e8971d85;0xc12d4927ada803894561380282bc8176;0xda33b8bf9ed883a2f1cd2843ee036d95;0x21ed58108e1175eb4f2a46e78428f166;0xef4cbb22be89ac304ec0f4c83a5596b0;0x14925b8dae405a79f0279a6c507e0a43;0xb0cdbe46de7add454cd7539685af58df;0x4b135ee9ceb32b0cf2303d32ef84c42c;0x85b2bddbfe2bf2d7f3da8f1d51f9a3fa;0x7e6c5d74eee2049e4d3de1b93bd23f09;0x0e0cb48e1e5f3faf48f9de2a38980701;0xf5d254210e96c9e6f61eb08e52b39bf2;0x3b73b7133e0e103df7f402a1eccefc24;0xc0ad57bc2ec7e67449136c0586e560d7;0x64f2b2775efd6148f5e3a5ff5334324b;0x9f2c52d84e3497014b04cb5b391faeb8;0x518db1ea7eac4eda4aee79748762c96e;0xaa5351456e65b893f40917d0ed49559d;0x67b19019184c8d8ce17559f65fdfd26b;0x9c6f70b608857bc55f92375235f44e98;0x52ce9384381da21e5e78857d8b89294e;0xa910732b28d45457e09febd9e1a2b5bd;0x0d4f96e058eed36b5c6f22233473e721;0xf691764f48272522e2884c875e587bd2;0x3830957d78bffcf9e362fea8e0251c04;0xc3ee75d268760ab05d85900c8a0e80f7;0xb38e9c2898cb31815841af9f8944b8ff;0x48507c878802c7c8e6a6c13be36f240c;0x86f19fb5b89a1e13e74c73145d1243da;0x7d2f7f1aa853e85a59ab1db03739df29;0xd9709ad1d8696f66e55bd44ae2e88db5;0x22ae7a7ec8a0992f5bbcbaee88c31146;0xec0f994cf83840f45a5608c136be7690;0x17d179e3e8f1b6bde4b166655c95ea63;0x0ccf887bdb813696501d7624302a0680;0xf71168d4cb48c0dfeefa18805a019a73;0x39b08be6fbd01904ef10aaafe47cfda5;0xc26e6b49eb19ef4d51f7c40b8e576156;0x66318e829b236871ed070df15b8633ca;0x9def6e2d8bea9e3853e0635531adaf39;0x534e8d1fbb7247e3520ad17a8fd0c8ef;0xa8906db0abbbb1aaecedbfdee5fb541c;0xd8f0844a5b068a9be929804de6b16c14;0x232e64e54bcf7cd257ceeee98c9af0e7;0xed8f87d77b57a50956245cc632e79731;0x165167786b9e5340e8c3326258cc0bc2;0xb20e82b31ba4d47c5433fb988d1d595e;0x49d0621c0b6d2235ead4953ce736c5ad;0x8771812e3bf5fbeeeb3e2713594ba27b;0x7caf61812b3c0da755d949b733603e88];
   [0x00000000000000000000000000000000;0x016f5a3dbfadeeabf1c4af02d61c89f2;0x02deb47abd991f95214b9d046f38d127;0x03b1ee470234f13ed08f3206b92458d5;0x047fabf4b9f13ee94296f908de70614e;0x0510f1c9065cd042b352560a086ce8bc;0x06a11f8e0468217c63dd640cb148b069;0x07ce45b3bbc5cfd79219cb0e6754399b;0x08fe952bb1217c1184ef31107fe0c29c;0x0991cf160e8c92ba752b9e12a9fc4b6e;0x0a2021510cb86384a5a4ac1410d813bb;0x0b4f7b6cb3158d2f54600316c6c49a49;0x0c813edf08d042f8c679c818a190a3d2;0x0dee64e2b77dac5337bd671a778c2a20;0x0e5f8aa5b5495d6de732551ccea872f5;0x0f30d0980ae4b3c616f6fa1e18b4fb07;0x103fe956a142f822cb1d6220fe0347fb;0x1150b36b1eef16893ad9cd22281fce09;0x12e15d2c1cdbe7b7ea56ff24913b96dc;0x138e0711a376091c1b92502647271f2e;0x144042a218b3c6cb898b9b28207326b5;0x152f189fa71e2860784f342af66faf47;0x169ef6d8a52ad95ea8c0062c4f4bf792;0x17f1ace51a8737f55904a92e99577e60;0x18c17c7d106384334ff2533081e38567;0x19ae2640afce6a98be36fc3257ff0c95;0x1a1fc807adfa9ba66eb9ce34eedb5440;0x1b70923a1257750d9f7d613638c7ddb2;0x1cbed789a992bada0d64aa385f93e429;0x1dd18db4163f5471fca0053a898f6ddb;0x1e6063f3140ba54f2c2f373c30ab350e;0x1f0f39ceaba64be4ddeb983ee6b7bcfc;0x207e11ac81843344553ac4403f068e35;0x21114b913e29ddefa4fe6b42e91a07c7;0x22a0a5d63c1d2cd174715944503e5f12;0x23cfffeb83b0c27a85b5f6468622d6e0;0x2401ba5838750dad17ac3d48e176ef7b;0x256ee06587d8e306e668924a376a6689;0x26df0e2285ec123836e7a04c8e4e3e5c;0x27b0541f3a41fc93c7230f4e5852b7ae;0x2880848730a54f55d1d5f55040e64ca9;0x29efdeba8f08a1fe20115a5296fac55b;0x2a5e30fd8d3c50c0f09e68542fde9d8e;0x2b316ac03291be6b015ac756f9c2147c;0x2cff2f73895471bc93430c589e962de7;0x2d90754e36f99f176287a35a488aa415;0x2e219b0934cd6e29b208915cf1aefcc0;0x2f4ec1348b60808243cc3e5e27b27532;0x3041f8fa20c6cb669e27a660c105c9ce;0x312ea2c79f6b25cd6fe309621719403c;0x329f4c809d5fd4f3bf6c3b64ae3d18e9;0x33f016bd22f23a584ea894667821911b;0x343e530e9937f58fdcb15f681f75a880;0x35510933269a1b242d75f06ac9692172;0x36e0e77424aeea1afdfac26c704d79a7;0x378fbd499b0304b10c3e6d6ea651f055;0x38bf6dd191e7b7771ac89770bee50b52;0x39d037ec2e4a59dceb0c387268f982a0;0x3a61d9ab2c7ea8e23b830a74d1ddda75;0x3b0e839693d34649ca47a57607c15387;0x3cc0c6252816899e585e6e7860956a1c;0x3daf9c1897bb6735a99ac17ab689e3ee;0x3e1e725f958f960b7915f37c0fadbb3b;0x3f7128622a2278a088d15c7ed9b132c9;0x40fc229bc1cb6688aa744b807e0cdf6a;0x419378a67e6688235bb0e482a8105698;0x422296e17c52791d8b3fd68411340e4d;0x434dccdcc3ff97b67afb7986c72887bf;0x4483896f783a5861e8e2b288a07cbe24;0x45ecd352c797b6ca19261d8a766037d6;0x465d3d15c5a347f4c9a92f8ccf446f03;0x473267287a0ea95f386d808e1958e6f1;0x4802b7b070ea1a992e9b7a9001ec1df6;0x496ded8dcf47f432df5fd592d7f09404;0x4adc03cacd73050c0fd0e7946ed4ccd1;0x4bb359f772deeba7fe144896b8c84523;0x4c7d1c44c91b24706c0d8398df9c7cb8;0x4d12467976b6cadb9dc92c9a0980f54a;0x4ea3a83e74823be54d461e9cb0a4ad9f;0x4fccf203cb2fd54ebc82b19e66b8246d;0x50c3cbcd60899eaa616929a0800f9891;0x51ac91f0df24700190ad86a256131163;0x521d7fb7dd10813f4022b4a4ef3749b6;0x5372258a62bd6f94b1e61ba6392bc044;0x54bc6039d978a04323ffd0a85e7ff9df;0x55d33a0466d54ee8d23b7faa8863702d;0x5662d44364e1bfd602b44dac314728f8;0x570d8e7edb4c517df370e2aee75ba10a;0x583d5ee6d1a8e2bbe58618b0ffef5a0d;0x595204db6e050c101442b7b229f3d3ff;0x5ae3ea9c6c31fd2ec4cd85b490d78b2a;0x5b8cb0a1d39c138535092ab646cb02d8;0x5c42f5126859dc52a710e1b8219f3b43;0x5d2daf2fd7f432f956d44ebaf783b2b1;0x5e9c4168d5c0c3c7865b7cbc4ea7ea64;0x5ff31b556a6d2d6c779fd3be98bb6396;0x60823337404f55ccff4e8fc0410a515f;0x61ed690affe2bb670e8a20c29716d8ad;0x625c874dfdd64a59de0512c42e328078;0x6333dd70427ba4f22fc1bdc6f82e098a;0x64fd98c3f9be6b25bdd876c89f7a3011;0x6592c2fe4613858e4c1cd9ca4966b9e3;0x66232cb9442774b09c93ebccf042e136;0x674c7684fb8a9a1b6d5744ce265e68c4;0x687ca61cf16e29dd7ba1bed03eea93c3;0x6913fc214ec3c7768a6511d2e8f61a31;0x6aa212664cf736485aea23d451d242e4;0x6bcd485bf35ad8e3ab2e8cd687cecb16;0x6c030de8489f1734393747d8e09af28d;0x6d6c57d5f732f99fc8f3e8da36867b7f;0x6eddb992f50608a1187cdadc8fa223aa;0x6fb2e3af4aabe60ae9b875de59beaa58;0x70bdda61e10dadee3453ede0bf0916a4;0x71d2805c5ea04345c59742e269159f56;0x72636e1b5c94b27b151870e4d031c783;0x730c3426e3395cd0e4dcdfe6062d4e71;0x74c2719558fc930776c514e8617977ea;0x75ad2ba8e7517dac8701bbeab765fe18;0x761cc5efe5658c92578e89ec0e41a6cd;0x77739fd25ac86239a64a26eed85d2f3f;0x78434f4a502cd1ffb0bcdcf0c0e9d438;0x792c1577ef813f54417873f216f55dca;0x7a9dfb30edb5ce6a91f741f4afd1051f;0x7bf2a10d521820c16033eef679cd8ced;0x7c3ce4bee9ddef16f22a25f81e99b576;0x7d53be83567001bd03ee8afac8853c84;0x7ee250c45444f083d361b8fc71a16451;0x7f8d0af9ebe91e2822a517fea7bdeda3;0x803b44f54155ccd397e896c3fc187dd4;0x81541ec8fef82278662c39c12a04f426;0x82e5f08ffcccd346b6a30bc79320acf3;0x838aaab243613ded4767a4c5453c2501;0x8444ef01f8a4f23ad57e6fcb22681c9a;0x852bb53c47091c9124bac0c9f4749568;0x869a5b7b453dedaff435f2cf4d50cdbd;0x87f50146fa90030405f15dcd9b4c444f;0x88c5d1def074b0c21307a7d383f8bf48;0x89aa8be34fd95e69e2c308d155e436ba;0x8a1b65a44dedaf57324c3ad7ecc06e6f;0x8b743f99f24041fcc38895d53adce79d;0x8cba7a2a49858e2b51915edb5d88de06;0x8dd52017f6286080a055f1d98b9457f4;0x8e64ce50f41c91be70dac3df32b00f21;0x8f0b946d4bb17f15811e6cdde4ac86d3;0x9004ada3e01734f15cf5f4e3021b3a2f;0x916bf79e5fbada5aad315be1d407b3dd;0x92da19d95d8e2b647dbe69e76d23eb08;0x93b543e4e223c5cf8c7ac6e5bb3f62fa;0x947b065759e60a181e630debdc6b5b61;0x95145c6ae64be4b3efa7a2e90a77d293;0x96a5b22de47f158d3f2890efb3538a46;0x97cae8105bd2fb26ceec3fed654f03b4;0x98fa3888513648e0d81ac5f37dfbf8b3;0x999562b5ee9ba64b29de6af1abe77141;0x9a248cf2ecaf5775f95158f712c32994;0x9b4bd6cf5302b9de0895f7f5c4dfa066;0x9c85937ce8c776099a8c3cfba38b99fd;0x9deac941576a98a26b4893f97597100f;0x9e5b2706555e699cbbc7a1ffccb348da;0x9f347d3beaf387374a030efd1aafc128;0xa0455559c0d1ff97c2d25283c31ef3e1;0xa12a0f647f7c113c3316fd8115027a13;0xa29be1237d48e002e399cf87ac2622c6;0xa3f4bb1ec2e50ea9125d60857a3aab34;0xa43afead7920c17e8044ab8b1d6e92af;0xa555a490c68d2fd571800489cb721b5d;0xa6e44ad7c4b9deeba10f368f72564388;0xa78b10ea7b14304050cb998da44aca7a;0xa8bbc07271f08386463d6393bcfe317d;0xa9d49a4fce5d6d2db7f9cc916ae2b88f;0xaa657408cc699c136776fe97d3c6e05a;0xab0a2e3573c472b896b2519505da69a8;0xacc46b86c801bd6f04ab9a9b628e5033;0xadab31bb77ac53c4f56f3599b492d9c1;0xae1adffc7598a2fa25e0079f0db68114;0xaf7585c1ca354c51d424a89ddbaa08e6;0xb07abc0f619307b509cf30a33d1db41a;0xb115e632de3ee91ef80b9fa1eb013de8;0xb2a40875dc0a18202884ada75225653d;0xb3cb524863a7f68bd94002a58439eccf;0xb40517fbd862395c4b59c9abe36dd554;0xb56a4dc667cfd7f7ba9d66a935715ca6;0xb6dba38165fb26c96a1254af8c550473;0xb7b4f9bcda56c8629bd6fbad5a498d81;0xb8842924d0b27ba48d2001b342fd7686;0xb9eb73196f1f950f7ce4aeb194e1ff74;0xba5a9d5e6d2b6431ac6b9cb72dc5a7a1;0xbb35c763d2868a9a5daf33b5fbd92e53;0xbcfb82d06943454dcfb6f8bb9c8d17c8;0xbd94d8edd6eeabe63e7257b94a919e3a;0xbe2536aad4da5ad8eefd65bff3b5c6ef;0xbf4a6c976b77b4731f39cabd25a94f1d;0xc0c7666e809eaa5b3d9cdd438214a2be;0xc1a83c533f3344f0cc58724154082b4c;0xc219d2143d07b5ce1cd74047ed2c7399;0xc376882982aa5b65ed13ef453b30fa6b;0xc4b8cd9a396f94b27f0a244b5c64c3f0;0xc5d797a786c27a198ece8b498a784a02;0xc66679e084f68b275e41b94f335c12d7;0xc70923dd3b5b658caf85164de5409b25;0xc839f34531bfd64ab973ec53fdf46022;0xc956a9788e1238e148b743512be8e9d0;0xcae7473f8c26c9df9838715792ccb105;0xcb881d02338b277469fcde5544d038f7;0xcc4658b1884ee8a3fbe5155b2384016c;0xcd29028c37e306080a21ba59f598889e;0xce98eccb35d7f736daae885f4cbcd04b;0xcff7b6f68a7a199d2b6a275d9aa059b9;0xd0f88f3821dc5279f681bf637c17e545;0xd197d5059e71bcd207451061aa0b6cb7;0xd2263b429c454decd7ca2267132f3462;0xd349617f23e8a347260e8d65c533bd90;0xd48724cc982d6c90b417466ba267840b;0xd5e87ef12780823b45d3e969747b0df9;0xd65990b625b47305955cdb6fcd5f552c;0xd736ca8b9a199dae6498746d1b43dcde;0xd8061a1390fd2e68726e8e7303f727d9;0xd969402e2f50c0c383aa2171d5ebae2b;0xdad8ae692d6431fd532513776ccff6fe;0xdbb7f45492c9df56a2e1bc75bad37f0c;0xdc79b1e7290c108130f8777bdd874697;0xdd16ebda96a1fe2ac13cd8790b9bcf65;0xdea7059d94950f1411b3ea7fb2bf97b0;0xdfc85fa02b38e1bfe077457d64a31e42;0xe0b977c2011a991f68a61903bd122c8b;0xe1d62dffbeb777b49962b6016b0ea579;0xe267c3b8bc83868a49ed8407d22afdac;0xe3089985032e6821b8292b050436745e;0xe4c6dc36b8eba7f62a30e00b63624dc5;0xe5a9860b0746495ddbf44f09b57ec437;0xe618684c0572b8630b7b7d0f0c5a9ce2;0xe7773271badf56c8fabfd20dda461510;0xe847e2e9b03be50eec492813c2f2ee17;0xe928b8d40f960ba51d8d871114ee67e5;0xea9956930da2fa9bcd02b517adca3f30;0xebf60caeb20f14303cc61a157bd6b6c2;0xec38491d09cadbe7aedfd11b1c828f59;0xed571320b667354c5f1b7e19ca9e06ab;0xeee6fd67b453c4728f944c1f73ba5e7e;0xef89a75a0bfe2ad97e50e31da5a6d78c;0xf0869e94a058613da3bb7b2343116b70;0xf1e9c4a91ff58f96527fd421950de282;0xf2582aee1dc17ea882f0e6272c29ba57;0xf33770d3a26c900373344925fa3533a5;0xf4f9356019a95fd4e12d822b9d610a3e;0xf5966f5da604b17f10e92d294b7d83cc;0xf627811aa4304041c0661f2ff259db19;0xf748db271b9daeea31a2b02d244552eb;0xf8780bbf11791d2c27544a333cf1a9ec;0xf9175182aed4f387d690e531eaed201e;0xfaa6bfc5ace002b9061fd73753c978cb;0xfbc9e5f8134dec12f7db783585d5f139;0xfc07a04ba88823c565c2b33be281c8a2;0xfd68fa761725cd6e94061c39349d4150;0xfed9143115113c5044892e3f8db91985;0xffb64e0caabcd2fbb54d813d5ba59077];
   [0x00000000000000000000000000000000;0xc0774494607c128d2e2dbceb1143488e;0x43ee88ebc0f824d95c5abb15228690df;0x8399cc7fa0843654727707fe33c5d851;0x861fd31543334871b8b4b52a44cfe37d;0x46689781234f5afc969909c1558cabf3;0xc5f15bfe83cb6ca8e4ee0e3f664973a2;0x05861f6ae3b77e25cac3b2d4770a3b2c;0xcf3e652a866690e2b3aba954885d05fa;0x0f4921bee61a826f9d8615bf991e4d74;0x8cd0edc1469eb43beff11241aadb9525;0x4ca7a95526e2a6b6c1dcaeaabb98ddab;0x4921b63fc555d8930b1f1c7ecc92e687;0x8956f2aba529ca1e2532a095ddd1ae09;0x0acf3ed405adfc4a5745a76bee147658;0xcab87a4065d1eec779681b80ff573ed6;0x5d7cca54cfcce307a59591a8d3ba0a37;0x9d0b8ec0afb0f18a8bb82d43c2f942b9;0x1e9242bf0f34c7def9cf2abdf13c9ae8;0xdee5062b6f48d553d7e29656e07fd266;0xdb6319418cffab761d2124829775e94a;0x1b145dd5ec83b9fb330c98698636a1c4;0x988d91aa4c078faf417b9f97b5f37995;0x58fad53e2c7b9d226f56237ca4b0311b;0x9242af7e49aa73e5163e38fc5be70fcd;0x5235ebea29d66168381384174aa44743;0xd1ac27958952573c4a6483e979619f12;0x11db6301e92e45b164493f026822d79c;0x145d7c6b0a993b94ae8a8dd61f28ecb0;0xd42a38ff6ae5291980a7313d0e6ba43e;0x57b3f480ca611f4df2d036c33dae7c6f;0x97c4b014aa1d0dc0dcfd8a282ced34e1;0xbaf857a85d5b050e89e9e19365b7146e;0x7a8f133c3d271783a7c45d7874f45ce0;0xf916df439da321d7d5b35a86473184b1;0x39619bd7fddf335afb9ee66d5672cc3f;0x3ce784bd1e684d7f315d54b92178f713;0xfc90c0297e145ff21f70e852303bbf9d;0x7f090c56de9069a66d07efac03fe67cc;0xbf7e48c2beec7b2b432a534712bd2f42;0x75c63282db3d95ec3a4248c7edea1194;0xb5b17616bb418761146ff42cfca9591a;0x3628ba691bc5b1356618f3d2cf6c814b;0xf65ffefd7bb9a3b848354f39de2fc9c5;0xf3d9e197980edd9d82f6fdeda925f2e9;0x33aea503f872cf10acdb4106b866ba67;0xb037697c58f6f944deac46f88ba36236;0x70402de8388aebc9f081fa139ae02ab8;0xe7849dfc9297e6092c7c703bb60d1e59;0x27f3d968f2ebf4840251ccd0a74e56d7;0xa46a1517526fc2d07026cb2e948b8e86;0x641d51833213d05d5e0b77c585c8c608;0x619b4ee9d1a4ae7894c8c511f2c2fd24;0xa1ec0a7db1d8bcf5bae579fae381b5aa;0x2275c602115c8aa1c8927e04d0446dfb;0xe20282967120982ce6bfc2efc1072575;0x28baf8d614f176eb9fd7d96f3e501ba3;0xe8cdbc42748d6466b1fa65842f13532d;0x6b54703dd4095232c38d627a1cd68b7c;0xab2334a9b47540bfeda0de910d95c3f2;0xaea52bc357c23e9a27636c457a9ff8de;0x6ed26f5737be2c17094ed0ae6bdcb050;0xed4ba328973a1a437b39d75058196801;0x2d3ce7bcf74608ce55146bbb495a208f;0xb733ae93bab60a1cd11101e5caad28dc;0x7744ea07daca1891ff3cbd0edbee6052;0xf4dd26787a4e2ec58d4bbaf0e82bb803;0x34aa62ec1a323c48a366061bf968f08d;0x312c7d86f985426d69a5b4cf8e62cba1;0xf15b391299f950e0478808249f21832f;0x72c2f56d397d66b435ff0fdaace45b7e;0xb2b5b1f9590174391bd2b331bda713f0;0x780dcbb93cd09afe62baa8b142f02d26;0xb87a8f2d5cac88734c97145a53b365a8;0x3be34352fc28be273ee013a46076bdf9;0xfb9407c69c54acaa10cdaf4f7135f577;0xfe1218ac7fe3d28fda0e1d9b063fce5b;0x3e655c381f9fc002f423a170177c86d5;0xbdfc9047bf1bf6568654a68e24b95e84;0x7d8bd4d3df67e4dba8791a6535fa160a;0xea4f64c7757ae91b7484904d191722eb;0x2a3820531506fb965aa92ca608546a65;0xa9a1ec2cb582cdc228de2b583b91b234;0x69d6a8b8d5fedf4f06f397b32ad2faba;0x6c50b7d23649a16acc3025675dd8c196;0xac27f3465635b3e7e21d998c4c9b8918;0x2fbe3f39f6b185b3906a9e727f5e5149;0xefc97bad96cd973ebe4722996e1d19c7;0x257101edf31c79f9c72f3919914a2711;0xe506457993606b74e90285f280096f9f;0x669f890633e45d209b75820cb3ccb7ce;0xa6e8cd9253984fadb5583ee7a28fff40;0xa36ed2f8b02f31887f9b8c33d585c46c;0x6319966cd053230551b630d8c4c68ce2;0xe0805a1370d7155123c13726f70354b3;0x20f71e8710ab07dc0dec8bcde6401c3d;0x0dcbf93be7ed0f1258f8e076af1a3cb2;0xcdbcbdaf87911d9f76d55c9dbe59743c;0x4e2571d027152bcb04a25b638d9cac6d;0x8e523544476939462a8fe7889cdfe4e3;0x8bd42a2ea4de4763e04c555cebd5dfcf;0x4ba36ebac4a255eece61e9b7fa969741;0xc83aa2c5642663babc16ee49c9534f10;0x084de651045a7137923b52a2d810079e;0xc2f59c11618b9ff0eb53492227473948;0x0282d88501f78d7dc57ef5c9360471c6;0x811b14faa173bb29b709f23705c1a997;0x416c506ec10fa9a499244edc1482e119;0x44ea4f0422b8d78153e7fc086388da35;0x849d0b9042c4c50c7dca40e372cb92bb;0x0704c7efe240f3580fbd471d410e4aea;0xc773837b823ce1d52190fbf6504d0264;0x50b7336f2821ec15fd6d71de7ca03685;0x90c077fb485dfe98d340cd356de37e0b;0x1359bb84e8d9c8cca137cacb5e26a65a;0xd32eff1088a5da418f1a76204f65eed4;0xd6a8e07a6b12a46445d9c4f4386fd5f8;0x16dfa4ee0b6eb6e96bf4781f292c9d76;0x95466891abea80bd19837fe11ae94527;0x55312c05cb96923037aec30a0baa0da9;0x9f895645ae477cf74ec6d88af4fd337f;0x5ffe12d1ce3b6e7a60eb6461e5be7bf1;0xdc67deae6ebf582e129c639fd67ba3a0;0x1c109a3a0ec34aa33cb1df74c738eb2e;0x19968550ed743486f6726da0b032d002;0xd9e1c1c48d08260bd85fd14ba171988c;0x5a780dbb2d8c105faa28d6b592b440dd;0x9a0f492f4df002d284056a5e83f70853;0xad669fe5b7af1438612202095799507b;0x6d11db71d7d306b54f0fbee246da18f5;0xee88170e775730e13d78b91c751fc0a4;0x2eff539a172b226c135505f7645c882a;0x2b794cf0f49c5c49d996b7231356b306;0xeb0e086494e04ec4f7bb0bc80215fb88;0x6897c41b3464789085cc0c3631d023d9;0xa8e0808f54186a1dabe1b0dd20936b57;0x6258facf31c984dad289ab5ddfc45581;0xa22fbe5b51b59657fca417b6ce871d0f;0x21b67224f131a0038ed31048fd42c55e;0xe1c136b0914db28ea0feaca3ec018dd0;0xe44729da72faccab6a3d1e779b0bb6fc;0x24306d4e1286de264410a29c8a48fe72;0xa7a9a131b202e8723667a562b98d2623;0x67dee5a5d27efaff184a1989a8ce6ead;0xf01a55b17863f73fc4b793a184235a4c;0x306d1125181fe5b2ea9a2f4a956012c2;0xb3f4dd5ab89bd3e698ed28b4a6a5ca93;0x738399ced8e7c16bb6c0945fb7e6821d;0x760586a43b50bf4e7c03268bc0ecb931;0xb672c2305b2cadc3522e9a60d1aff1bf;0x35eb0e4ffba89b9720599d9ee26a29ee;0xf59c4adb9bd4891a0e742175f3296160;0x3f24309bfe0567dd771c3af50c7e5fb6;0xff53740f9e7975505931861e1d3d1738;0x7ccab8703efd43042b4681e02ef8cf69;0xbcbdfce45e815189056b3d0b3fbb87e7;0xb93be38ebd362faccfa88fdf48b1bccb;0x794ca71add4a3d21e185333459f2f445;0xfad56b657dce0b7593f234ca6a372c14;0x3aa22ff11db219f8bddf88217b74649a;0x179ec84deaf41136e8cbe39a322e4415;0xd7e98cd98a8803bbc6e65f71236d0c9b;0x547040a62a0c35efb491588f10a8d4ca;0x940704324a7027629abce46401eb9c44;0x91811b58a9c75947507f56b076e1a768;0x51f65fccc9bb4bca7e52ea5b67a2efe6;0xd26f93b3693f7d9e0c25eda5546737b7;0x1218d72709436f132208514e45247f39;0xd8a0ad676c9281d45b604aceba7341ef;0x18d7e9f30cee9359754df625ab300961;0x9b4e258cac6aa50d073af1db98f5d130;0x5b396118cc16b78029174d3089b699be;0x5ebf7e722fa1c9a5e3d4ffe4febca292;0x9ec83ae64fdddb28cdf9430fefffea1c;0x1d51f699ef59ed7cbf8e44f1dc3a324d;0xdd26b20d8f25fff191a3f81acd797ac3;0x4ae202192538f2314d5e7232e1944e22;0x8a95468d4544e0bc6373ced9f0d706ac;0x090c8af2e5c0d6e81104c927c312defd;0xc97bce6685bcc4653f2975ccd2519673;0xccfdd10c660bba40f5eac718a55bad5f;0x0c8a95980677a8cddbc77bf3b418e5d1;0x8f1359e7a6f39e99a9b07c0d87dd3d80;0x4f641d73c68f8c14879dc0e6969e750e;0x85dc6733a35e62d3fef5db6669c94bd8;0x45ab23a7c322705ed0d8678d788a0356;0xc632efd863a6460aa2af60734b4fdb07;0x0645ab4c03da54878c82dc985a0c9389;0x03c3b426e06d2aa246416e4c2d06a8a5;0xc3b4f0b28011382f686cd2a73c45e02b;0x402d3ccd20950e7b1a1bd5590f80387a;0x805a785940e91cf6343669b21ec370f4;0x1a5531760d191e24b03303ec9d3478a7;0xda2275e26d650ca99e1ebf078c773029;0x59bbb99dcde13afdec69b8f9bfb2e878;0x99ccfd09ad9d2870c2440412aef1a0f6;0x9c4ae2634e2a56550887b6c6d9fb9bda;0x5c3da6f72e5644d826aa0a2dc8b8d354;0xdfa46a888ed2728c54dd0dd3fb7d0b05;0x1fd32e1ceeae60017af0b138ea3e438b;0xd56b545c8b7f8ec60398aab815697d5d;0x151c10c8eb039c4b2db51653042a35d3;0x9685dcb74b87aa1f5fc211ad37efed82;0x56f298232bfbb89271efad4626aca50c;0x53748749c84cc6b7bb2c1f9251a69e20;0x9303c3dda830d43a9501a37940e5d6ae;0x109a0fa208b4e26ee776a48773200eff;0xd0ed4b3668c8f0e3c95b186c62634671;0x4729fb22c2d5fd2315a692444e8e7290;0x875ebfb6a2a9efae3b8b2eaf5fcd3a1e;0x04c773c9022dd9fa49fc29516c08e24f;0xc4b0375d6251cb7767d195ba7d4baac1;0xc136283781e6b552ad12276e0a4191ed;0x01416ca3e19aa7df833f9b851b02d963;0x82d8a0dc411e918bf1489c7b28c70132;0x42afe44821628306df652090398449bc;0x88179e0844b36dc1a60d3b10c6d3776a;0x4860da9c24cf7f4c882087fbd7903fe4;0xcbf916e3844b4918fa578005e455e7b5;0x0b8e5277e4375b95d47a3ceef516af3b;0x0e084d1d078025b01eb98e3a821c9417;0xce7f098967fc373d309432d1935fdc99;0x4de6c5f6c778016942e3352fa09a04c8;0x8d918162a70413e46cce89c4b1d94c46;0xa0ad66de50421b2a39dae27ff8836cc9;0x60da224a303e09a717f75e94e9c02447;0xe343ee3590ba3ff36580596ada05fc16;0x2334aaa1f0c62d7e4bade581cb46b498;0x26b2b5cb1371535b816e5755bc4c8fb4;0xe6c5f15f730d41d6af43ebbead0fc73a;0x655c3d20d3897782dd34ec409eca1f6b;0xa52b79b4b3f5650ff31950ab8f8957e5;0x6f9303f4d6248bc88a714b2b70de6933;0xafe44760b6589945a45cf7c0619d21bd;0x2c7d8b1f16dcaf11d62bf03e5258f9ec;0xec0acf8b76a0bd9cf8064cd5431bb162;0xe98cd0e19517c3b932c5fe0134118a4e;0x29fb9475f56bd1341ce842ea2552c2c0;0xaa62580a55efe7606e9f451416971a91;0x6a151c9e3593f5ed40b2f9ff07d4521f;0xfdd1ac8a9f8ef82d9c4f73d72b3966fe;0x3da6e81efff2eaa0b262cf3c3a7a2e70;0xbe3f24615f76dcf4c015c8c209bff621;0x7e4860f53f0ace79ee38742918fcbeaf;0x7bce7f9fdcbdb05c24fbc6fd6ff68583;0xbbb93b0bbcc1a2d10ad67a167eb5cd0d;0x3820f7741c45948578a17de84d70155c;0xf857b3e07c398608568cc1035c335dd2;0x32efc9a019e868cf2fe4da83a3646304;0xf2988d3479947a4201c96668b2272b8a;0x7101414bd9104c1673be619681e2f3db;0xb17605dfb96c5e9b5d93dd7d90a1bb55;0xb4f01ab55adb20be97506fa9e7ab8079;0x74875e213aa73233b97dd342f6e8c8f7;0xf71e925e9a230467cb0ad4bcc52d10a6;0x3769d6cafa5f16eae5276857d46e5828];
   [0x00000000000000000000000000000000;0xc25d97f3e91a8dcbbb06c5201c689093;0x47baed251134d955b50c494038d0e3e5;0x85e77ad6f82e549e0e0a8c6024b87376;0x8eb7194a226871aaa918928070630509;0x4cea8eb9cb72fc61121e57a06c0b959a;0xc90df46f335ca8ff1c14dbc048b3e6ec;0x0b50639cda462534a7121ee054db767f;0xdfad329444d0e2979130e7c3e0c60a12;0x1df0a567adca6f5c2a3622e3fcae9a81;0x9817dfb155e43bc2243cae83d816e9f7;0x5a4a4842bcfeb6099f3a6ba3c47e7964;0x511a2bde66b8933d3828754390a50f1b;0x9347bc2d8fa21ef6832eb0638ccd9f88;0x16a0c6fb778c4a688d243c03a875ecfe;0xd4fd51089e96c7a33622f923b41d7c6d;0x7d9964eb886307ede1600d45034f1424;0xbfc4f31861798a265a66c8651f2784b7;0x3a2389ce9957deb8546c44053b9ff7c1;0xf87e1e3d704d5373ef6a812527f76752;0xf32e7da1aa0b764748789fc5732c112d;0x3173ea524311fb8cf37e5ae56f4481be;0xb4949084bb3faf12fd74d6854bfcf2c8;0x76c90777522522d9467213a55794625b;0xa234567fccb3e57a7050ea86e3891e36;0x6069c18c25a968b1cb562fa6ffe18ea5;0xe58ebb5add873c2fc55ca3c6db59fdd3;0x27d32ca9349db1e47e5a66e6c7316d40;0x2c834f35eedb94d0d948780693ea1b3f;0xeeded8c607c1191b624ebd268f828bac;0x6b39a210ffef4d856c443146ab3af8da;0xa96435e316f5c04ed742f466b7526849;0xfaf1c815d3c60e1901c01a8a069e2848;0x38ac5fe63adc83d2bac6dfaa1af6b8db;0xbd4b2530c2f2d74cb4cc53ca3e4ecbad;0x7f16b2c32be85a870fca96ea22265b3e;0x7446d15ff1ae7fb3a8d8880a76fd2d41;0xb61b46ac18b4f27813de4d2a6a95bdd2;0x33fc3c7ae09aa6e61dd4c14a4e2dcea4;0xf1a1ab8909802b2da6d2046a52455e37;0x255cfa819716ec8e90f0fd49e658225a;0xe7016d727e0c61452bf63869fa30b2c9;0x62e617a4862235db25fcb409de88c1bf;0xa0bb80576f38b8109efa7129c2e0512c;0xabebe3cbb57e9d2439e86fc9963b2753;0x69b674385c6410ef82eeaae98a53b7c0;0xec510eeea44a44718ce42689aeebc4b6;0x2e0c991d4d50c9ba37e2e3a9b2835425;0x8768acfe5ba509f4e0a017cf05d13c6c;0x45353b0db2bf843f5ba6d2ef19b9acff;0xc0d241db4a91d0a155ac5e8f3d01df89;0x028fd628a38b5d6aeeaa9baf21694f1a;0x09dfb5b479cd785e49b8854f75b23965;0xcb82224790d7f595f2be406f69daa9f6;0x4e65589168f9a10bfcb4cc0f4d62da80;0x8c38cf6281e32cc047b2092f510a4a13;0x58c59e6a1f75eb637190f00ce517367e;0x9a980999f66f66a8ca96352cf97fa6ed;0x1f7f734f0e413236c49cb94cddc7d59b;0xdd22e4bce75bbffd7f9a7c6cc1af4508;0xd67287203d1d9ac9d888628c95743377;0x142f10d3d4071702638ea7ac891ca3e4;0x91c86a052c29439c6d842bccada4d092;0x5395fdf6c533ce57d682eeecb1cc4001;0x3721532a654f1c32024334d70cff5090;0xf57cc4d98c5591f9b945f1f71097c003;0x709bbe0f747bc567b74f7d97342fb375;0xb2c629fc9d6148ac0c49b8b7284723e6;0xb9964a6047276d98ab5ba6577c9c5599;0x7bcbdd93ae3de053105d637760f4c50a;0xfe2ca7455613b4cd1e57ef17444cb67c;0x3c7130b6bf093906a5512a37582426ef;0xe88c61be219ffea59373d314ec395a82;0x2ad1f64dc885736e28751634f051ca11;0xaf368c9b30ab27f0267f9a54d4e9b967;0x6d6b1b68d9b1aa3b9d795f74c88129f4;0x663b78f403f78f0f3a6b41949c5a5f8b;0xa466ef07eaed02c4816d84b48032cf18;0x218195d112c3565a8f6708d4a48abc6e;0xe3dc0222fbd9db913461cdf4b8e22cfd;0x4ab837c1ed2c1bdfe32339920fb044b4;0x88e5a032043696145825fcb213d8d427;0x0d02dae4fc18c28a562f70d23760a751;0xcf5f4d1715024f41ed29b5f22b0837c2;0xc40f2e8bcf446a754a3bab127fd341bd;0x0652b978265ee7bef13d6e3263bbd12e;0x83b5c3aede70b320ff37e2524703a258;0x41e8545d376a3eeb443127725b6b32cb;0x95150555a9fcf9487213de51ef764ea6;0x574892a640e67483c9151b71f31ede35;0xd2afe870b8c8201dc71f9711d7a6ad43;0x10f27f8351d2add67c195231cbce3dd0;0x1ba21c1f8b9488e2db0b4cd19f154baf;0xd9ff8bec628e0529600d89f1837ddb3c;0x5c18f13a9aa051b76e070591a7c5a84a;0x9e4566c973badc7cd501c0b1bbad38d9;0xcdd09b3fb689122b03832e5d0a6178d8;0x0f8d0ccc5f939fe0b885eb7d1609e84b;0x8a6a761aa7bdcb7eb68f671d32b19b3d;0x4837e1e94ea746b50d89a23d2ed90bae;0x4367827594e16381aa9bbcdd7a027dd1;0x813a15867dfbee4a119d79fd666aed42;0x04dd6f5085d5bad41f97f59d42d29e34;0xc680f8a36ccf371fa49130bd5eba0ea7;0x127da9abf259f0bc92b3c99eeaa772ca;0xd0203e581b437d7729b50cbef6cfe259;0x55c7448ee36d29e927bf80ded277912f;0x979ad37d0a77a4229cb945fece1f01bc;0x9ccab0e1d03181163bab5b1e9ac477c3;0x5e972712392b0cdd80ad9e3e86ace750;0xdb705dc4c10558438ea7125ea2149426;0x192dca37281fd58835a1d77ebe7c04b5;0xb049ffd43eea15c6e2e32318092e6cfc;0x72146827d7f0980d59e5e6381546fc6f;0xf7f312f12fdecc9357ef6a5831fe8f19;0x35ae8502c6c44158ece9af782d961f8a;0x3efee69e1c82646c4bfbb198794d69f5;0xfca3716df598e9a7f0fd74b86525f966;0x79440bbb0db6bd39fef7f8d8419d8a10;0xbb199c48e4ac30f245f13df85df51a83;0x6fe4cd407a3af75173d3c4dbe9e866ee;0xadb95ab393207a9ac8d501fbf580f67d;0x285e20656b0e2e04c6df8d9bd138850b;0xea03b7968214a3cf7dd948bbcd501598;0xe153d40a585286fbdacb565b998b63e7;0x230e43f9b1480b3061cd937b85e3f374;0xa6e9392f49665fae6fc71f1ba15b8002;0x64b4aedca07cd265d4c1da3bbd331091;0x6e42a654ca9e38640486686d183da0e3;0xac1f31a72384b5afbf80ad4d04553070;0x29f84b71dbaae131b18a212d20ed4306;0xeba5dc8232b06cfa0a8ce40d3c85d395;0xe0f5bf1ee8f649cead9efaed685ea5ea;0x22a828ed01ecc40516983fcd74363579;0xa74f523bf9c2909b1892b3ad508e460f;0x6512c5c810d81d50a394768d4ce6d69c;0xb1ef94c08e4edaf395b68faef8fbaaf1;0x73b20333675457382eb04a8ee4933a62;0xf65579e59f7a03a620bac6eec02b4914;0x3408ee1676608e6d9bbc03cedc43d987;0x3f588d8aac26ab593cae1d2e8898aff8;0xfd051a79453c269287a8d80e94f03f6b;0x78e260afbd12720c89a2546eb0484c1d;0xbabff75c5408ffc732a4914eac20dc8e;0x13dbc2bf42fd3f89e5e665281b72b4c7;0xd186554cabe7b2425ee0a008071a2454;0x54612f9a53c9e6dc50ea2c6823a25722;0x963cb869bad36b17ebece9483fcac7b1;0x9d6cdbf560954e234cfef7a86b11b1ce;0x5f314c06898fc3e8f7f832887779215d;0xdad636d071a19776f9f2bee853c1522b;0x188ba12398bb1abd42f47bc84fa9c2b8;0xcc76f02b062ddd1e74d682ebfbb4bed5;0x0e2b67d8ef3750d5cfd047cbe7dc2e46;0x8bcc1d0e1719044bc1dacbabc3645d30;0x49918afdfe0389807adc0e8bdf0ccda3;0x42c1e9612445acb4ddce106b8bd7bbdc;0x809c7e92cd5f217f66c8d54b97bf2b4f;0x057b0444357175e168c2592bb3075839;0xc72693b7dc6bf82ad3c49c0baf6fc8aa;0x94b36e411958367d054672e71ea388ab;0x56eef9b2f042bbb6be40b7c702cb1838;0xd3098364086cef28b04a3ba726736b4e;0x11541497e17662e30b4cfe873a1bfbdd;0x1a04770b3b3047d7ac5ee0676ec08da2;0xd859e0f8d22aca1c1758254772a81d31;0x5dbe9a2e2a049e821952a92756106e47;0x9fe30dddc31e1349a2546c074a78fed4;0x4b1e5cd55d88d4ea94769524fe6582b9;0x8943cb26b49259212f705004e20d122a;0x0ca4b1f04cbc0dbf217adc64c6b5615c;0xcef92603a5a680749a7c1944daddf1cf;0xc5a9459f7fe0a5403d6e07a48e0687b0;0x07f4d26c96fa288b8668c284926e1723;0x8213a8ba6ed47c1588624ee4b6d66455;0x404e3f4987cef1de33648bc4aabef4c6;0xe92a0aaa913b3190e4267fa21dec9c8f;0x2b779d597821bc5b5f20ba8201840c1c;0xae90e78f800fe8c5512a36e2253c7f6a;0x6ccd707c6915650eea2cf3c23954eff9;0x679d13e0b353403a4d3eed226d8f9986;0xa5c084135a49cdf1f638280271e70915;0x2027fec5a267996ff832a462555f7a63;0xe27a69364b7d14a4433461424937eaf0;0x3687383ed5ebd30775169861fd2a969d;0xf4daafcd3cf15eccce105d41e142060e;0x713dd51bc4df0a52c01ad121c5fa7578;0xb36042e82dc587997b1c1401d992e5eb;0xb8302174f783a2addc0e0ae18d499394;0x7a6db6871e992f666708cfc191210307;0xff8acc51e6b77bf8690243a1b5997071;0x3dd75ba20fadf633d2048681a9f1e0e2;0x5963f57eafd1245606c55cba14c2f073;0x9b3e628d46cba99dbdc3999a08aa60e0;0x1ed9185bbee5fd03b3c915fa2c121396;0xdc848fa857ff70c808cfd0da307a8305;0xd7d4ec348db955fcafddce3a64a1f57a;0x15897bc764a3d83714db0b1a78c965e9;0x906e01119c8d8ca91ad1877a5c71169f;0x523396e275970162a1d7425a4019860c;0x86cec7eaeb01c6c197f5bb79f404fa61;0x44935019021b4b0a2cf37e59e86c6af2;0xc1742acffa351f9422f9f239ccd41984;0x0329bd3c132f925f99ff3719d0bc8917;0x0879dea0c969b76b3eed29f98467ff68;0xca24495320733aa085ebecd9980f6ffb;0x4fc33385d85d6e3e8be160b9bcb71c8d;0x8d9ea4763147e3f530e7a599a0df8c1e;0x24fa919527b223bbe7a551ff178de457;0xe6a70666cea8ae705ca394df0be574c4;0x63407cb03686faee52a918bf2f5d07b2;0xa11deb43df9c7725e9afdd9f33359721;0xaa4d88df05da52114ebdc37f67eee15e;0x68101f2cecc0dfdaf5bb065f7b8671cd;0xedf765fa14ee8b44fbb18a3f5f3e02bb;0x2faaf209fdf4068f40b74f1f43569228;0xfb57a3016362c12c7695b63cf74bee45;0x390a34f28a784ce7cd93731ceb237ed6;0xbced4e2472561879c399ff7ccf9b0da0;0x7eb0d9d79b4c95b2789f3a5cd3f39d33;0x75e0ba4b410ab086df8d24bc8728eb4c;0xb7bd2db8a8103d4d648be19c9b407bdf;0x325a576e503e69d36a816dfcbff808a9;0xf007c09db924e418d187a8dca390983a;0xa3923d6b7c172a4f07054630125cd83b;0x61cfaa98950da784bc0383100e3448a8;0xe428d04e6d23f31ab2090f702a8c3bde;0x267547bd84397ed1090fca5036e4ab4d;0x2d2524215e7f5be5ae1dd4b0623fdd32;0xef78b3d2b765d62e151b11907e574da1;0x6a9fc9044f4b82b01b119df05aef3ed7;0xa8c25ef7a6510f7ba01758d04687ae44;0x7c3f0fff38c7c8d89635a1f3f29ad229;0xbe62980cd1dd45132d3364d3eef242ba;0x3b85e2da29f3118d2339e8b3ca4a31cc;0xf9d87529c0e99c46983f2d93d622a15f;0xf28816b51aafb9723f2d337382f9d720;0x30d58146f3b534b9842bf6539e9147b3;0xb532fb900b9b60278a217a33ba2934c5;0x776f6c63e281edec3127bf13a641a456;0xde0b5980f4742da2e6654b751113cc1f;0x1c56ce731d6ea0695d638e550d7b5c8c;0x99b1b4a5e540f4f75369023529c32ffa;0x5bec23560c5a793ce86fc71535abbf69;0x50bc40cad61c5c084f7dd9f56170c916;0x92e1d7393f06d1c3f47b1cd57d185985;0x1706adefc728855dfa7190b559a02af3;0xd55b3a1c2e3208964177559545c8ba60;0x01a66b14b0a4cf357755acb6f1d5c60d;0xc3fbfce759be42fecc536996edbd569e;0x461c8631a1901660c259e5f6c90525e8;0x844111c2488a9bab795f20d6d56db57b;0x8f11725e92ccbe9fde4d3e3681b6c304;0x4d4ce5ad7bd63354654bfb169dde5397;0xc8ab9f7b83f867ca6b417776b96620e1;0x0af608886ae2ea01d047b256a50eb072];
   [0x00000000000000000000000000000000;0x1096cad930682f141a170cca0c70dabf;0x20ef577160d05e28342e185718e077bd;0x30799da850b8713c2e39149d1490ad02;0x401daee2c063bc50685c30ae3003eeb9;0x508b643bf00b9344724b3c643c733406;0x60f2f993a0b3e2785c7228f928e39904;0x7064334a90dbcd6c46652433249343bb;0x803a9f0743c6bba0d0b8609f60061fb1;0x90ac55de73ae94b4caaf6c556c76c50e;0xa0d5c8762316e588e49678c878e6680c;0xb04302af137eca9cfe8174027496b2b3;0xc02731e583a507f0b8e450315005f108;0xd0b1fb3cb3cd28e4a2f35cfb5c752bb7;0xe0c86694e37559d88cca486648e586b5;0xf05eac4dd31d76cc96dd44ac44955c0a;0xc374fd0e864fb58363b3c0fdc00c3ea1;0xd3e237d7b6279a9779a4cc37cc7ce41e;0xe39baa7fe69febab579dd8aad8ec491c;0xf30d60a6d6f7c4bf4d8ad460d49c93a3;0x836953ec462c09d30beff053f00fd018;0x93ff9935764426c711f8fc99fc7f0aa7;0xa386049d26fc57fb3fc1e804e8efa7a5;0xb310ce44169478ef25d6e4cee49f7d1a;0x434e6209c5890e23b30ba062a00a2110;0x53d8a8d0f5e12137a91caca8ac7afbaf;0x63a13578a559500b8725b835b8ea56ad;0x7337ffa195317f1f9d32b4ffb49a8c12;0x0353cceb05eab273db5790cc9009cfa9;0x13c5063235829d67c1409c069c791516;0x23bc9b9a653aec5bef79889b88e9b814;0x332a51435552c34ff56e8451849962ab;0x45e8391ccf9ea9c5c6a5433943187c81;0x557ef3c5fff686d1dcb24ff34f68a63e;0x65076e6daf4ef7edf28b5b6e5bf80b3c;0x7591a4b49f26d8f9e89c57a45788d183;0x05f597fe0ffd1595aef97397731b9238;0x15635d273f953a81b4ee7f5d7f6b4887;0x251ac08f6f2d4bbd9ad76bc06bfbe585;0x358c0a565f4564a980c0670a678b3f3a;0xc5d2a61b8c581265161d23a6231e6330;0xd5446cc2bc303d710c0a2f6c2f6eb98f;0xe53df16aec884c4d22333bf13bfe148d;0xf5ab3bb3dce063593824373b378ece32;0x85cf08f94c3bae357e411308131d8d89;0x9559c2207c53812164561fc21f6d5736;0xa5205f882cebf01d4a6f0b5f0bfdfa34;0xb5b695511c83df0950780795078d208b;0x869cc41249d11c46a51683c483144220;0x960a0ecb79b93352bf018f0e8f64989f;0xa67393632901426e91389b939bf4359d;0xb6e559ba19696d7a8b2f97599784ef22;0xc6816af089b2a016cd4ab36ab317ac99;0xd617a029b9da8f02d75dbfa0bf677626;0xe66e3d81e962fe3ef964ab3dabf7db24;0xf6f8f758d90ad12ae373a7f7a787019b;0x06a65b150a17a7e675aee35be3125d91;0x163091cc3a7f88f26fb9ef91ef62872e;0x26490c646ac7f9ce4180fb0cfbf22a2c;0x36dfc6bd5aafd6da5b97f7c6f782f093;0x46bbf5f7ca741bb61df2d3f5d311b328;0x562d3f2efa1c34a207e5df3fdf616997;0x6654a286aaa4459e29dccba2cbf1c495;0x76c2685f9acc6a8a33cbc768c7811e2a;0x8a1372385dff91494f8986728630f8c1;0x9a85b8e16d97be5d559e8ab88a40227e;0xaafc25493d2fcf617ba79e259ed08f7c;0xba6aef900d47e07561b092ef92a055c3;0xca0edcda9d9c2d1927d5b6dcb6331678;0xda981603adf4020d3dc2ba16ba43ccc7;0xeae18babfd4c733113fbae8baed361c5;0xfa774172cd245c2509eca241a2a3bb7a;0x0a29ed3f1e392ae99f31e6ede636e770;0x1abf27e62e5105fd8526ea27ea463dcf;0x2ac6ba4e7ee974c1ab1ffebafed690cd;0x3a5070974e815bd5b108f270f2a64a72;0x4a3443ddde5a96b9f76dd643d63509c9;0x5aa28904ee32b9aded7ada89da45d376;0x6adb14acbe8ac891c343ce14ced57e74;0x7a4dde758ee2e785d954c2dec2a5a4cb;0x49678f36dbb024ca2c3a468f463cc660;0x59f145efebd80bde362d4a454a4c1cdf;0x6988d847bb607ae218145ed85edcb1dd;0x791e129e8b0855f60203521252ac6b62;0x097a21d41bd3989a44667621763f28d9;0x19eceb0d2bbbb78e5e717aeb7a4ff266;0x299576a57b03c6b270486e766edf5f64;0x3903bc7c4b6be9a66a5f62bc62af85db;0xc95d103198769f6afc822610263ad9d1;0xd9cbdae8a81eb07ee6952ada2a4a036e;0xe9b24740f8a6c142c8ac3e473edaae6c;0xf9248d99c8ceee56d2bb328d32aa74d3;0x8940bed35815233a94de16be16393768;0x99d6740a687d0c2e8ec91a741a49edd7;0xa9afe9a238c57d12a0f00ee90ed940d5;0xb939237b08ad5206bae7022302a99a6a;0xcffb4b249261388c892cc54bc5288440;0xdf6d81fda2091798933bc981c9585eff;0xef141c55f2b166a4bd02dd1cddc8f3fd;0xff82d68cc2d949b0a715d1d6d1b82942;0x8fe6e5c6520284dce170f5e5f52b6af9;0x9f702f1f626aabc8fb67f92ff95bb046;0xaf09b2b732d2daf4d55eedb2edcb1d44;0xbf9f786e02baf5e0cf49e178e1bbc7fb;0x4fc1d423d1a7832c5994a5d4a52e9bf1;0x5f571efae1cfac384383a91ea95e414e;0x6f2e8352b177dd046dbabd83bdceec4c;0x7fb8498b811ff21077adb149b1be36f3;0x0fdc7ac111c43f7c31c8957a952d7548;0x1f4ab01821ac10682bdf99b0995daff7;0x2f332db07114615405e68d2d8dcd02f5;0x3fa5e769417c4e401ff181e781bdd84a;0x0c8fb62a142e8d0fea9f05b60524bae1;0x1c197cf32446a21bf088097c0954605e;0x2c60e15b74fed327deb11de11dc4cd5c;0x3cf62b824496fc33c4a6112b11b417e3;0x4c9218c8d44d315f82c3351835275458;0x5c04d211e4251e4b98d439d239578ee7;0x6c7d4fb9b49d6f77b6ed2d4f2dc723e5;0x7ceb856084f54063acfa218521b7f95a;0x8cb5292d57e836af3a2765296522a550;0x9c23e3f4678019bb203069e369527fef;0xac5a7e5c373868870e097d7e7dc2d2ed;0xbcccb48507504793141e71b471b20852;0xcca887cf978b8aff527b558755214be9;0xdc3e4d16a7e3a5eb486c594d59519156;0xec47d0bef75bd4d766554dd04dc13c54;0xfcd11a67c733fbc37c42411a41b1e6eb;0xd726e470ba3de1929ed1cfe4cf603341;0xc7b02ea98a55ce8684c6c32ec310e9fe;0xf7c9b301daedbfbaaaffd7b3d78044fc;0xe75f79d8ea8590aeb0e8db79dbf09e43;0x973b4a927a5e5dc2f68dff4aff63ddf8;0x87ad804b4a3672d6ec9af380f3130747;0xb7d41de31a8e03eac2a3e71de783aa45;0xa742d73a2ae62cfed8b4ebd7ebf370fa;0x571c7b77f9fb5a324e69af7baf662cf0;0x478ab1aec9937526547ea3b1a316f64f;0x77f32c06992b041a7a47b72cb7865b4d;0x6765e6dfa9432b0e6050bbe6bbf681f2;0x1701d5953998e66226359fd59f65c249;0x07971f4c09f0c9763c22931f931518f6;0x37ee82e45948b84a121b87828785b5f4;0x2778483d6920975e080c8b488bf56f4b;0x1452197e3c725411fd620f190f6c0de0;0x04c4d3a70c1a7b05e77503d3031cd75f;0x34bd4e0f5ca20a39c94c174e178c7a5d;0x242b84d66cca252dd35b1b841bfca0e2;0x544fb79cfc11e841953e3fb73f6fe359;0x44d97d45cc79c7558f29337d331f39e6;0x74a0e0ed9cc1b669a11027e0278f94e4;0x64362a34aca9997dbb072b2a2bff4e5b;0x946886797fb4efb12dda6f866f6a1251;0x84fe4ca04fdcc0a537cd634c631ac8ee;0xb487d1081f64b19919f477d1778a65ec;0xa4111bd12f0c9e8d03e37b1b7bfabf53;0xd475289bbfd753e145865f285f69fce8;0xc4e3e2428fbf7cf55f9153e253192657;0xf49a7feadf070dc971a8477f47898b55;0xe40cb533ef6f22dd6bbf4bb54bf951ea;0x92cedd6c75a3485758748cdd8c784fc0;0x825817b545cb6743426380178008957f;0xb2218a1d1573167f6c5a948a9498387d;0xa2b740c4251b396b764d984098e8e2c2;0xd2d3738eb5c0f4073028bc73bc7ba179;0xc245b95785a8db132a3fb0b9b00b7bc6;0xf23c24ffd510aa2f0406a424a49bd6c4;0xe2aaee26e578853b1e11a8eea8eb0c7b;0x12f4426b3665f3f788ccec42ec7e5071;0x026288b2060ddce392dbe088e00e8ace;0x321b151a56b5addfbce2f415f49e27cc;0x228ddfc366dd82cba6f5f8dff8eefd73;0x52e9ec89f6064fa7e090dcecdc7dbec8;0x427f2650c66e60b3fa87d026d00d6477;0x7206bbf896d6118fd4bec4bbc49dc975;0x62907121a6be3e9bcea9c871c8ed13ca;0x51ba2062f3ecfdd43bc74c204c747161;0x412ceabbc384d2c021d040ea4004abde;0x71557713933ca3fc0fe95477549406dc;0x61c3bdcaa3548ce815fe58bd58e4dc63;0x11a78e80338f4184539b7c8e7c779fd8;0x0131445903e76e90498c704470074567;0x3148d9f1535f1fac67b564d96497e865;0x21de1328633730b87da2681368e732da;0xd180bf65b02a4674eb7f2cbf2c726ed0;0xc11675bc80426960f16820752002b46f;0xf16fe814d0fa185cdf5134e83492196d;0xe1f922cde0923748c546382238e2c3d2;0x919d11877049fa2483231c111c718069;0x810bdb5e4021d530993410db10015ad6;0xb17246f61099a40cb70d04460491f7d4;0xa1e48c2f20f18b18ad1a088c08e12d6b;0x5d359648e7c270dbd15849964950cb80;0x4da35c91d7aa5fcfcb4f455c4520113f;0x7ddac13987122ef3e57651c151b0bc3d;0x6d4c0be0b77a01e7ff615d0b5dc06682;0x1d2838aa27a1cc8bb904793879532539;0x0dbef27317c9e39fa31375f27523ff86;0x3dc76fdb477192a38d2a616f61b35284;0x2d51a5027719bdb7973d6da56dc3883b;0xdd0f094fa404cb7b01e029092956d431;0xcd99c396946ce46f1bf725c325260e8e;0xfde05e3ec4d4955335ce315e31b6a38c;0xed7694e7f4bcba472fd93d943dc67933;0x9d12a7ad6467772b69bc19a719553a88;0x8d846d74540f583f73ab156d1525e037;0xbdfdf0dc04b729035d9201f001b54d35;0xad6b3a0534df061747850d3a0dc5978a;0x9e416b46618dc558b2eb896b895cf521;0x8ed7a19f51e5ea4ca8fc85a1852c2f9e;0xbeae3c37015d9b7086c5913c91bc829c;0xae38f6ee3135b4649cd29df69dcc5823;0xde5cc5a4a1ee7908dab7b9c5b95f1b98;0xceca0f7d9186561cc0a0b50fb52fc127;0xfeb392d5c13e2720ee99a192a1bf6c25;0xee25580cf1560834f48ead58adcfb69a;0x1e7bf441224b7ef86253e9f4e95aea90;0x0eed3e98122351ec7844e53ee52a302f;0x3e94a330429b20d0567df1a3f1ba9d2d;0x2e0269e972f30fc44c6afd69fdca4792;0x5e665aa3e228c2a80a0fd95ad9590429;0x4ef0907ad240edbc1018d590d529de96;0x7e890dd282f89c803e21c10dc1b97394;0x6e1fc70bb290b3942436cdc7cdc9a92b;0x18ddaf54285cd91e17fd0aaf0a48b701;0x084b658d1834f60a0dea066506386dbe;0x3832f825488c873623d312f812a8c0bc;0x28a432fc78e4a82239c41e321ed81a03;0x58c001b6e83f654e7fa13a013a4b59b8;0x4856cb6fd8574a5a65b636cb363b8307;0x782f56c788ef3b664b8f225622ab2e05;0x68b99c1eb887147251982e9c2edbf4ba;0x98e730536b9a62bec7456a306a4ea8b0;0x8871fa8a5bf24daadd5266fa663e720f;0xb80867220b4a3c96f36b726772aedf0d;0xa89eadfb3b221382e97c7ead7ede05b2;0xd8fa9eb1abf9deeeaf195a9e5a4d4609;0xc86c54689b91f1fab50e5654563d9cb6;0xf815c9c0cb2980c69b3742c942ad31b4;0xe8830319fb41afd281204e034eddeb0b;0xdba9525aae136c9d744eca52ca4489a0;0xcb3f98839e7b43896e59c698c634531f;0xfb46052bcec332b54060d205d2a4fe1d;0xebd0cff2feab1da15a77decfded424a2;0x9bb4fcb86e70d0cd1c12fafcfa476719;0x8b2236615e18ffd90605f636f637bda6;0xbb5babc90ea08ee5283ce2abe2a710a4;0xabcd61103ec8a1f1322bee61eed7ca1b;0x5b93cd5dedd5d73da4f6aacdaa429611;0x4b050784ddbdf829bee1a607a6324cae;0x7b7c9a2c8d05891590d8b29ab2a2e1ac;0x6bea50f5bd6da6018acfbe50bed23b13;0x1b8e63bf2db66b6dccaa9a639a4178a8;0x0b18a9661dde4479d6bd96a99631a217;0x3b6134ce4d663545f884823482a10f15;0x2bf7fe177d0e1a51e2938efe8ed1d5aa];
   [0x00000000000000000000000000000000;0x857475d05ebeb8874e62ec6b1087c674;0xc9e8ea63bcbfb3cd9cc41bd620cd4fe8;0x4c9c9fb3e2010b4ad2a6f7bd304a899c;0x511317c6bbbda559fb4b366f40599e13;0xd4676216e5031ddeb529da0450de5867;0x98fbfda507021694678f2db96094d1fb;0x1d8f887559bcae1329edc1d27013178f;0xa2262e4fb5b989b235966cde80b2ff26;0x27525b9feb0731357bf480b590353952;0x6bcec42c09063a7fa9527708a07fb0ce;0xeebab1fc57b882f8e7309b63b0f876ba;0xf33539890e042cebcedd5ab1c0eb6135;0x76414c5950ba946c80bfb6dad06ca741;0x3addd3eab2bb9f2652194167e0262edd;0xbfa9a63aec0527a11c7bad0cf0a1e8a9;0x874c5c9ea9b1d1a76aefd87fc3a73d4c;0x0238294ef70f6920248d3414d320fb38;0x4ea4b6fd150e626af62bc3a9e36a72a4;0xcbd0c32d4bb0daedb8492fc2f3edb4d0;0xd65f4b58120c74fe91a4ee1083fea35f;0x532b3e884cb2cc79dfc6027b9379652b;0x1fb7a13baeb3c7330d60f5c6a333ecb7;0x9ac3d4ebf00d7fb4430219adb3b42ac3;0x256a72d11c0858155f79b4a14315c26a;0xa01e070142b6e092111b58ca5392041e;0xec8298b2a0b7ebd8c3bdaf7763d88d82;0x69f6ed62fe09535f8ddf431c735f4bf6;0x74796517a7b5fd4ca43282ce034c5c79;0xf10d10c7f90b45cbea506ea513cb9a0d;0xbd918f741b0a4e8138f6991823811391;0x38e5faa445b4f606769475733306d5e5;0xcd98b8ff91a1618dd41d73fe458d7a98;0x48eccd2fcf1fd90a9a7f9f95550abcec;0x0470529c2d1ed24048d9682865403570;0x8104274c73a06ac706bb844375c7f304;0x9c8baf392a1cc4d42f56459105d4e48b;0x19ffdae974a27c536134a9fa155322ff;0x5563455a96a37719b3925e472519ab63;0xd017308ac81dcf9efdf0b22c359e6d17;0x6fbe96b02418e83fe18b1f20c53f85be;0xeacae3607aa650b8afe9f34bd5b843ca;0xa6567cd398a75bf27d4f04f6e5f2ca56;0x23220903c619e375332de89df5750c22;0x3ead81769fa54d661ac0294f85661bad;0xbbd9f4a6c11bf5e154a2c52495e1ddd9;0xf7456b15231afeab86043299a5ab5445;0x72311ec57da4462cc866def2b52c9231;0x4ad4e4613810b02abef2ab81862a47d4;0xcfa091b166ae08adf09047ea96ad81a0;0x833c0e0284af03e72236b057a6e7083c;0x06487bd2da11bb606c545c3cb660ce48;0x1bc7f3a783ad157345b99deec673d9c7;0x9eb38677dd13adf40bdb7185d6f41fb3;0xd22f19c43f12a6bed97d8638e6be962f;0x575b6c1461ac1e39971f6a53f639505b;0xe8f2ca2e8da939988b64c75f0698b8f2;0x6d86bffed317811fc5062b34161f7e86;0x211a204d31168a5517a0dc892655f71a;0xa46e559d6fa832d259c230e236d2316e;0xb9e1dde836149cc1702ff13046c126e1;0x3c95a83868aa24463e4d1d5b5646e095;0x7009378b8aab2f0cecebeae6660c6909;0xf57d425bd415978ba289068d768baf7d;0x59f3b33de181c2d96b3ae63f8ad9f4f3;0xdc87c6edbf3f7a5e25580a549a5e3287;0x901b595e5d3e7114f7fefde9aa14bb1b;0x156f2c8e0380c993b99c1182ba937d6f;0x08e0a4fb5a3c67809071d050ca806ae0;0x8d94d12b0482df07de133c3bda07ac94;0xc1084e98e683d44d0cb5cb86ea4d2508;0x447c3b48b83d6cca42d727edfacae37c;0xfbd59d7254384b6b5eac8ae10a6b0bd5;0x7ea1e8a20a86f3ec10ce668a1aeccda1;0x323d7711e887f8a6c26891372aa6443d;0xb74902c1b63940218c0a7d5c3a218249;0xaac68ab4ef85ee32a5e7bc8e4a3295c6;0x2fb2ff64b13b56b5eb8550e55ab553b2;0x632e60d7533a5dff3923a7586affda2e;0xe65a15070d84e57877414b337a781c5a;0xdebfefa34830137e01d53e40497ec9bf;0x5bcb9a73168eabf94fb7d22b59f90fcb;0x175705c0f48fa0b39d11259669b38657;0x92237010aa311834d373c9fd79344023;0x8facf865f38db627fa9e082f092757ac;0x0ad88db5ad330ea0b4fce44419a091d8;0x464412064f3205ea665a13f929ea1844;0xc33067d6118cbd6d2838ff92396dde30;0x7c99c1ecfd899acc3443529ec9cc3699;0xf9edb43ca337224b7a21bef5d94bf0ed;0xb5712b8f41362901a8874948e9017971;0x30055e5f1f889186e6e5a523f986bf05;0x2d8ad62a46343f95cf0864f18995a88a;0xa8fea3fa188a8712816a889a99126efe;0xe4623c49fa8b8c5853cc7f27a958e762;0x61164999a43534df1dae934cb9df2116;0x946b0bc27020a354bf2795c1cf548e6b;0x111f7e122e9e1bd3f14579aadfd3481f;0x5d83e1a1cc9f109923e38e17ef99c183;0xd8f794719221a81e6d81627cff1e07f7;0xc5781c04cb9d060d446ca3ae8f0d1078;0x400c69d49523be8a0a0e4fc59f8ad60c;0x0c90f6677722b5c0d8a8b878afc05f90;0x89e483b7299c0d4796ca5413bf4799e4;0x364d258dc5992ae68ab1f91f4fe6714d;0xb339505d9b279261c4d315745f61b739;0xffa5cfee7926992b1675e2c96f2b3ea5;0x7ad1ba3e279821ac58170ea27facf8d1;0x675e324b7e248fbf71facf700fbfef5e;0xe22a479b209a37383f98231b1f38292a;0xaeb6d828c29b3c72ed3ed4a62f72a0b6;0x2bc2adf89c2584f5a35c38cd3ff566c2;0x1327575cd99172f3d5c84dbe0cf3b327;0x9653228c872fca749baaa1d51c747553;0xdacfbd3f652ec13e490c56682c3efccf;0x5fbbc8ef3b9079b9076eba033cb93abb;0x4234409a622cd7aa2e837bd14caa2d34;0xc740354a3c926f2d60e197ba5c2deb40;0x8bdcaaf9de936467b24760076c6762dc;0x0ea8df29802ddce0fc258c6c7ce0a4a8;0xb10179136c28fb41e05e21608c414c01;0x34750cc3329643c6ae3ccd0b9cc68a75;0x78e99370d097488c7c9a3ab6ac8c03e9;0xfd9de6a08e29f00b32f8d6ddbc0bc59d;0xe0126ed5d7955e181b15170fcc18d212;0x65661b05892be69f5577fb64dc9f1466;0x29fa84b66b2aedd587d10cd9ecd59dfa;0xac8ef16635945552c9b3e0b2fc525b8e;0xb225a57a01c14771d6740f7ed7712b25;0x3751d0aa5f7ffff69816e315c7f6ed51;0x7bcd4f19bd7ef4bc4ab014a8f7bc64cd;0xfeb93ac9e3c04c3b04d2f8c3e73ba2b9;0xe336b2bcba7ce2282d3f39119728b536;0x6642c76ce4c25aaf635dd57a87af7342;0x2ade58df06c351e5b1fb22c7b7e5fade;0xafaa2d0f587de962ff99ceaca7623caa;0x10038b35b478cec3e3e263a057c3d403;0x9577fee5eac67644ad808fcb47441277;0xd9eb615608c77d0e7f267876770e9beb;0x5c9f14865679c5893144941d67895d9f;0x41109cf30fc56b9a18a955cf179a4a10;0xc464e923517bd31d56cbb9a4071d8c64;0x88f87690b37ad857846d4e19375705f8;0x0d8c0340edc460d0ca0fa27227d0c38c;0x3569f9e4a87096d6bc9bd70114d61669;0xb01d8c34f6ce2e51f2f93b6a0451d01d;0xfc81138714cf251b205fccd7341b5981;0x79f566574a719d9c6e3d20bc249c9ff5;0x647aee2213cd338f47d0e16e548f887a;0xe10e9bf24d738b0809b20d0544084e0e;0xad920441af728042db14fab87442c792;0x28e67191f1cc38c5957616d364c501e6;0x974fd7ab1dc91f64890dbbdf9464e94f;0x123ba27b4377a7e3c76f57b484e32f3b;0x5ea73dc8a176aca915c9a009b4a9a6a7;0xdbd34818ffc8142e5bab4c62a42e60d3;0xc65cc06da674ba3d72468db0d43d775c;0x4328b5bdf8ca02ba3c2461dbc4bab128;0x0fb42a0e1acb09f0ee829666f4f038b4;0x8ac05fde4475b177a0e07a0de477fec0;0x7fbd1d85906026fc02697c8092fc51bd;0xfac96855cede9e7b4c0b90eb827b97c9;0xb655f7e62cdf95319ead6756b2311e55;0x3321823672612db6d0cf8b3da2b6d821;0x2eae0a432bdd83a5f9224aefd2a5cfae;0xabda7f9375633b22b740a684c22209da;0xe746e0209762306865e65139f2688046;0x623295f0c9dc88ef2b84bd52e2ef4632;0xdd9b33ca25d9af4e37ff105e124eae9b;0x58ef461a7b6717c9799dfc3502c968ef;0x1473d9a999661c83ab3b0b883283e173;0x9107ac79c7d8a404e559e7e322042707;0x8c88240c9e640a17ccb4263152173088;0x09fc51dcc0dab29082d6ca5a4290f6fc;0x4560ce6f22dbb9da50703de772da7f60;0xc014bbbf7c65015d1e12d18c625db914;0xf8f1411b39d1f75b6886a4ff515b6cf1;0x7d8534cb676f4fdc26e4489441dcaa85;0x3119ab78856e4496f442bf2971962319;0xb46ddea8dbd0fc11ba2053426111e56d;0xa9e256dd826c520293cd92901102f2e2;0x2c96230ddcd2ea85ddaf7efb01853496;0x600abcbe3ed3e1cf0f09894631cfbd0a;0xe57ec96e606d5948416b652d21487b7e;0x5ad76f548c687ee95d10c821d1e993d7;0xdfa31a84d2d6c66e1372244ac16e55a3;0x933f853730d7cd24c1d4d3f7f124dc3f;0x164bf0e76e6975a38fb63f9ce1a31a4b;0x0bc4789237d5dbb0a65bfe4e91b00dc4;0x8eb00d42696b6337e83912258137cbb0;0xc22c92f18b6a687d3a9fe598b17d422c;0x4758e721d5d4d0fa74fd09f3a1fa8458;0xebd61647e04085a8bd4ee9415da8dfd6;0x6ea26397befe3d2ff32c052a4d2f19a2;0x223efc245cff3665218af2977d65903e;0xa74a89f402418ee26fe81efc6de2564a;0xbac501815bfd20f14605df2e1df141c5;0x3fb1745105439876086733450d7687b1;0x732debe2e742933cdac1c4f83d3c0e2d;0xf6599e32b9fc2bbb94a328932dbbc859;0x49f0380855f90c1a88d8859fdd1a20f0;0xcc844dd80b47b49dc6ba69f4cd9de684;0x8018d26be946bfd7141c9e49fdd76f18;0x056ca7bbb7f807505a7e7222ed50a96c;0x18e32fceee44a9437393b3f09d43bee3;0x9d975a1eb0fa11c43df15f9b8dc47897;0xd10bc5ad52fb1a8eef57a826bd8ef10b;0x547fb07d0c45a209a135444dad09377f;0x6c9a4ad949f1540fd7a1313e9e0fe29a;0xe9ee3f09174fec8899c3dd558e8824ee;0xa572a0baf54ee7c24b652ae8bec2ad72;0x2006d56aabf05f450507c683ae456b06;0x3d895d1ff24cf1562cea0751de567c89;0xb8fd28cfacf249d16288eb3aced1bafd;0xf461b77c4ef3429bb02e1c87fe9b3361;0x7115c2ac104dfa1cfe4cf0ecee1cf515;0xcebc6496fc48ddbde2375de01ebd1dbc;0x4bc81146a2f6653aac55b18b0e3adbc8;0x07548ef540f76e707ef346363e705254;0x8220fb251e49d6f73091aa5d2ef79420;0x9faf735047f578e4197c6b8f5ee483af;0x1adb0680194bc063571e87e44e6345db;0x56479933fb4acb2985b870597e29cc47;0xd333ece3a5f473aecbda9c326eae0a33;0x264eaeb871e1e42569539abf1825a54e;0xa33adb682f5f5ca2273176d408a2633a;0xefa644dbcd5e57e8f597816938e8eaa6;0x6ad2310b93e0ef6fbbf56d02286f2cd2;0x775db97eca5c417c9218acd0587c3b5d;0xf229ccae94e2f9fbdc7a40bb48fbfd29;0xbeb5531d76e3f2b10edcb70678b174b5;0x3bc126cd285d4a3640be5b6d6836b2c1;0x846880f7c4586d975cc5f66198975a68;0x011cf5279ae6d51012a71a0a88109c1c;0x4d806a9478e7de5ac001edb7b85a1580;0xc8f41f44265966dd8e6301dca8ddd3f4;0xd57b97317fe5c8cea78ec00ed8cec47b;0x500fe2e1215b7049e9ec2c65c849020f;0x1c937d52c35a7b033b4adbd8f8038b93;0x99e708829de4c384752837b3e8844de7;0xa102f226d850358203bc42c0db829802;0x247687f686ee8d054ddeaeabcb055e76;0x68ea184564ef864f9f785916fb4fd7ea;0xed9e6d953a513ec8d11ab57debc8119e;0xf011e5e063ed90dbf8f774af9bdb0611;0x756590303d53285cb69598c48b5cc065;0x39f90f83df52231664336f79bb1649f9;0xbc8d7a5381ec9b912a518312ab918f8d;0x0324dc696de9bc30362a2e1e5b306724;0x8650a9b9335704b77848c2754bb7a150;0xcacc360ad1560ffdaaee35c87bfd28cc;0x4fb843da8fe8b77ae48cd9a36b7aeeb8;0x5237cbafd6541969cd6118711b69f937;0xd743be7f88eaa1ee8303f41a0bee3f43;0x9bdf21cc6aebaaa451a503a73ba4b6df;0x1eab541c345512231fc7efcc2b2370ab];
   [0x00000000000000000000000000000000;0x202d99e9959fd449e6d576f233c82098;0x405af111e9fd6b920f69ec27665340f3;0x607768f87c62bfdbe9bc9ad5559b606b;0x80b421221139d6e71ed21b4ecca68025;0xa099b8cb84a602aef8076dbcff6ea0bd;0xc0eed033f8c4bd7511bbf769aaf5c0d6;0xe0c349da6d5b693cf76e819b993de04e;0xc3ab424422726f0d3c67369c5b8fc34a;0xe386dbadb7edbb44dab2406e6847e3d2;0x83f1b355cb8f049f330edabb3ddc83b9;0xa3dc2abc5e10d0d6d5dbac490e14a321;0x431f6366334bb9ea22b52dd29729436f;0x6332fa8fa6d46da3c4605b20a4e163f7;0x03459277dab6d2782ddcc1f5f17a039c;0x23680b9e4f290631cb09b707c2b22304;0x4595848844e4de1a78ce6cfbb6dd4594;0x65b81d61d17b0a539e1b1a098515650c;0x05cf7599ad19b58877a780dcd08e0567;0x25e2ec70388661c19172f62ee34625ff;0xc521a5aa55dd08fd661c77b57a7bc5b1;0xe50c3c43c042dcb480c9014749b3e529;0x857b54bbbc20636f69759b921c288542;0xa556cd5229bfb7268fa0ed602fe0a5da;0x863ec6cc6696b11744a95a67ed5286de;0xa6135f25f309655ea27c2c95de9aa646;0xc66437dd8f6bda854bc0b6408b01c62d;0xe649ae341af40eccad15c0b2b8c9e6b5;0x068ae7ee77af67f05a7b412921f406fb;0x26a77e07e230b3b9bcae37db123c2663;0x46d016ff9e520c625512ad0e47a74608;0x66fd8f160bcdd82bb3c7dbfc746f6690;0x8ae9cbd3880b7f34f05fd835af798aeb;0xaac4523a1d94ab7d168aaec79cb1aa73;0xcab33ac261f614a6ff363412c92aca18;0xea9ea32bf469c0ef19e342e0fae2ea80;0x0a5deaf19932a9d3ee8dc37b63df0ace;0x2a7073180cad7d9a0858b58950172a56;0x4a071be070cfc241e1e42f5c058c4a3d;0x6a2a8209e5501608073159ae36446aa5;0x49428997aa791039cc38eea9f4f649a1;0x696f107e3fe6c4702aed985bc73e6939;0x0918788643847babc351028e92a50952;0x2935e16fd61bafe22584747ca16d29ca;0xc9f6a8b5bb40c6ded2eaf5e73850c984;0xe9db315c2edf1297343f83150b98e91c;0x89ac59a452bdad4cdd8319c05e038977;0xa981c04dc72279053b566f326dcba9ef;0xcf7c4f5bccefa12e8891b4ce19a4cf7f;0xef51d6b2597075676e44c23c2a6cefe7;0x8f26be4a2512cabc87f858e97ff78f8c;0xaf0b27a3b08d1ef5612d2e1b4c3faf14;0x4fc86e79ddd677c99643af80d5024f5a;0x6fe5f7904849a3807096d972e6ca6fc2;0x0f929f68342b1c5b992a43a7b3510fa9;0x2fbf0681a1b4c8127fff355580992f31;0x0cd70d1fee9dce23b4f68252422b0c35;0x2cfa94f67b021a6a5223f4a071e32cad;0x4c8dfc0e0760a5b1bb9f6e7524784cc6;0x6ca065e792ff71f85d4a188717b06c5e;0x8c632c3dffa418c4aa24991c8e8d8c10;0xac4eb5d46a3bcc8d4cf1efeebd45ac88;0xcc39dd2c16597356a54d753be8decce3;0xec1444c583c6a71f439803c9db16ec7b;0xd7115565d316fe6823be736a9df2d715;0xf73ccc8c46892a21c56b0598ae3af78d;0x974ba4743aeb95fa2cd79f4dfba197e6;0xb7663d9daf7441b3ca02e9bfc869b77e;0x57a57447c22f288f3d6c682451545730;0x7788edae57b0fcc6dbb91ed6629c77a8;0x17ff85562bd2431d32058403370717c3;0x37d21cbfbe4d9754d4d0f2f104cf375b;0x14ba1721f16491651fd945f6c67d145f;0x34978ec864fb452cf90c3304f5b534c7;0x54e0e6301899faf710b0a9d1a02e54ac;0x74cd7fd98d062ebef665df2393e67434;0x940e3603e05d4782010b5eb80adb947a;0xb423afea75c293cbe7de284a3913b4e2;0xd454c71209a02c100e62b29f6c88d489;0xf4795efb9c3ff859e8b7c46d5f40f411;0x9284d1ed97f220725b701f912b2f9281;0xb2a94804026df43bbda5696318e7b219;0xd2de20fc7e0f4be05419f3b64d7cd272;0xf2f3b915eb909fa9b2cc85447eb4f2ea;0x1230f0cf86cbf69545a204dfe78912a4;0x321d6926135422dca377722dd441323c;0x526a01de6f369d074acbe8f881da5257;0x72479837faa9494eac1e9e0ab21272cf;0x512f93a9b5804f7f6717290d70a051cb;0x71020a40201f9b3681c25fff43687153;0x117562b85c7d24ed687ec52a16f31138;0x3158fb51c9e2f0a48eabb3d8253b31a0;0xd19bb28ba4b9999879c53243bc06d1ee;0xf1b62b6231264dd19f1044b18fcef176;0x91c1439a4d44f20a76acde64da55911d;0xb1ecda73d8db26439079a896e99db185;0x5df89eb65b1d815cd3e1ab5f328b5dfe;0x7dd5075fce8255153534ddad01437d66;0x1da26fa7b2e0eacedc88477854d81d0d;0x3d8ff64e277f3e873a5d318a67103d95;0xdd4cbf944a2457bbcd33b011fe2ddddb;0xfd61267ddfbb83f22be6c6e3cde5fd43;0x9d164e85a3d93c29c25a5c36987e9d28;0xbd3bd76c3646e860248f2ac4abb6bdb0;0x9e53dcf2796fee51ef869dc369049eb4;0xbe7e451becf03a180953eb315accbe2c;0xde092de3909285c3e0ef71e40f57de47;0xfe24b40a050d518a063a07163c9ffedf;0x1ee7fdd0685638b6f154868da5a21e91;0x3eca6439fdc9ecff1781f07f966a3e09;0x5ebd0cc181ab5324fe3d6aaac3f15e62;0x7e9095281434876d18e81c58f0397efa;0x186d1a3e1ff95f46ab2fc7a48456186a;0x384083d78a668b0f4dfab156b79e38f2;0x5837eb2ff60434d4a4462b83e2055899;0x781a72c6639be09d42935d71d1cd7801;0x98d93b1c0ec089a1b5fddcea48f0984f;0xb8f4a2f59b5f5de85328aa187b38b8d7;0xd883ca0de73de233ba9430cd2ea3d8bc;0xf8ae53e472a2367a5c41463f1d6bf824;0xdbc6587a3d8b304b9748f138dfd9db20;0xfbebc193a814e402719d87caec11fbb8;0x9b9ca96bd4765bd998211d1fb98a9bd3;0xbbb1308241e98f907ef46bed8a42bb4b;0x5b7279582cb2e6ac899aea76137f5b05;0x7b5fe0b1b92d32e56f4f9c8420b77b9d;0x1b288849c54f8d3e86f30651752c1bf6;0x3b0511a050d05977602670a346e43b6e;0x6d22aaca652c3fd046bfe6d4f9276d2a;0x4d0f3323f0b3eb99a06a9026caef4db2;0x2d785bdb8cd1544249d60af39f742dd9;0x0d55c232194e800baf037c01acbc0d41;0xed968be87415e937586dfd9a3581ed0f;0xcdbb1201e18a3d7ebeb88b680649cd97;0xadcc7af99de882a5570411bd53d2adfc;0x8de1e310087756ecb1d1674f601a8d64;0xae89e88e475e50dd7ad8d048a2a8ae60;0x8ea47167d2c184949c0da6ba91608ef8;0xeed3199faea33b4f75b13c6fc4fbee93;0xcefe80763b3cef0693644a9df733ce0b;0x2e3dc9ac5667863a640acb066e0e2e45;0x0e105045c3f8527382dfbdf45dc60edd;0x6e6738bdbf9aeda86b632721085d6eb6;0x4e4aa1542a0539e18db651d33b954e2e;0x28b72e4221c8e1ca3e718a2f4ffa28be;0x089ab7abb4573583d8a4fcdd7c320826;0x68eddf53c8358a583118660829a9684d;0x48c046ba5daa5e11d7cd10fa1a6148d5;0xa8030f6030f1372d20a39161835ca89b;0x882e9689a56ee364c676e793b0948803;0xe859fe71d90c5cbf2fca7d46e50fe868;0xc87467984c9388f6c91f0bb4d6c7c8f0;0xeb1c6c0603ba8ec70216bcb31475ebf4;0xcb31f5ef96255a8ee4c3ca4127bdcb6c;0xab469d17ea47e5550d7f50947226ab07;0x8b6b04fe7fd8311cebaa266641ee8b9f;0x6ba84d24128358201cc4a7fdd8d36bd1;0x4b85d4cd871c8c69fa11d10feb1b4b49;0x2bf2bc35fb7e33b213ad4bdabe802b22;0x0bdf25dc6ee1e7fbf5783d288d480bba;0xe7cb6119ed2740e4b6e03ee1565ee7c1;0xc7e6f8f078b894ad503548136596c759;0xa791900804da2b76b989d2c6300da732;0x87bc09e19145ff3f5f5ca43403c587aa;0x677f403bfc1e9603a83225af9af867e4;0x4752d9d26981424a4ee7535da930477c;0x2725b12a15e3fd91a75bc988fcab2717;0x070828c3807c29d8418ebf7acf63078f;0x2460235dcf552fe98a87087d0dd1248b;0x044dbab45acafba06c527e8f3e190413;0x643ad24c26a8447b85eee45a6b826478;0x44174ba5b3379032633b92a8584a44e0;0xa4d4027fde6cf90e94551333c177a4ae;0x84f99b964bf32d47728065c1f2bf8436;0xe48ef36e3791929c9b3cff14a724e45d;0xc4a36a87a20e46d57de989e694ecc4c5;0xa25ee591a9c39efece2e521ae083a255;0x82737c783c5c4ab728fb24e8d34b82cd;0xe2041480403ef56cc147be3d86d0e2a6;0xc2298d69d5a121252792c8cfb518c23e;0x22eac4b3b8fa4819d0fc49542c252270;0x02c75d5a2d659c5036293fa61fed02e8;0x62b035a25107238bdf95a5734a766283;0x429dac4bc498f7c23940d38179be421b;0x61f5a7d58bb1f1f3f2496486bb0c611f;0x41d83e3c1e2e25ba149c127488c44187;0x21af56c4624c9a61fd2088a1dd5f21ec;0x0182cf2df7d34e281bf5fe53ee970174;0xe14186f79a882714ec9b7fc877aae13a;0xc16c1f1e0f17f35d0a4e093a4462c1a2;0xa11b77e673754c86e3f293ef11f9a1c9;0x8136ee0fe6ea98cf0527e51d22318151;0xba33ffafb63ac1b8650195be64d5ba3f;0x9a1e664623a515f183d4e34c571d9aa7;0xfa690ebe5fc7aa2a6a6879990286facc;0xda449757ca587e638cbd0f6b314eda54;0x3a87de8da703175f7bd38ef0a8733a1a;0x1aaa4764329cc3169d06f8029bbb1a82;0x7add2f9c4efe7ccd74ba62d7ce207ae9;0x5af0b675db61a884926f1425fde85a71;0x7998bdeb9448aeb55966a3223f5a7975;0x59b5240201d77afcbfb3d5d00c9259ed;0x39c24cfa7db5c527560f4f0559093986;0x19efd513e82a116eb0da39f76ac1191e;0xf92c9cc98571785247b4b86cf3fcf950;0xd901052010eeac1ba161ce9ec034d9c8;0xb9766dd86c8c13c048dd544b95afb9a3;0x995bf431f913c789ae0822b9a667993b;0xffa67b27f2de1fa21dcff945d208ffab;0xdf8be2ce6741cbebfb1a8fb7e1c0df33;0xbffc8a361b23743012a61562b45bbf58;0x9fd113df8ebca079f473639087939fc0;0x7f125a05e3e7c945031de20b1eae7f8e;0x5f3fc3ec76781d0ce5c894f92d665f16;0x3f48ab140a1aa2d70c740e2c78fd3f7d;0x1f6532fd9f85769eeaa178de4b351fe5;0x3c0d3963d0ac70af21a8cfd989873ce1;0x1c20a08a4533a4e6c77db92bba4f1c79;0x7c57c87239511b3d2ec123feefd47c12;0x5c7a519baccecf74c814550cdc1c5c8a;0xbcb91841c195a6483f7ad4974521bcc4;0x9c9481a8540a7201d9afa26576e99c5c;0xfce3e9502868cdda301338b02372fc37;0xdcce70b9bdf71993d6c64e4210badcaf;0x30da347c3e31be8c955e4d8bcbac30d4;0x10f7ad95abae6ac5738b3b79f864104c;0x7080c56dd7ccd51e9a37a1acadff7027;0x50ad5c84425301577ce2d75e9e3750bf;0xb06e155e2f08686b8b8c56c5070ab0f1;0x90438cb7ba97bc226d59203734c29069;0xf034e44fc6f503f984e5bae26159f002;0xd0197da6536ad7b06230cc105291d09a;0xf37176381c43d181a9397b179023f39e;0xd35cefd189dc05c84fec0de5a3ebd306;0xb32b8729f5beba13a6509730f670b36d;0x93061ec060216e5a4085e1c2c5b893f5;0x73c5571a0d7a0766b7eb60595c8573bb;0x53e8cef398e5d32f513e16ab6f4d5323;0x339fa60be4876cf4b8828c7e3ad63348;0x13b23fe27118b8bd5e57fa8c091e13d0;0x754fb0f47ad56096ed9021707d717540;0x5562291def4ab4df0b4557824eb955d8;0x351541e593280b04e2f9cd571b2235b3;0x1538d80c06b7df4d042cbba528ea152b;0xf5fb91d66becb671f3423a3eb1d7f565;0xd5d6083ffe73623815974ccc821fd5fd;0xb5a160c78211dde3fc2bd619d784b596;0x958cf92e178e09aa1afea0ebe44c950e;0xb6e4f2b058a70f9bd1f717ec26feb60a;0x96c96b59cd38dbd23722611e15369692;0xf6be03a1b15a6409de9efbcb40adf6f9;0xd6939a4824c5b040384b8d397365d661;0x3650d392499ed97ccf250ca2ea58362f;0x167d4a7bdc010d3529f07a50d99016b7;0x760a2283a063b2eec04ce0858c0b76dc;0x5627bb6a35fc66a726999677bfc35644];
   [0x00000000000000000000000000000000;0x9484dd10bd275db87a486c7276a26ecf;0xebcb7920b94ebab3f490d8e4ec87dc5d;0x7f4fa4300469e70b8ed8b4969a25b292;0x1555f240b19cb7a52be3730b1bcd7bba;0x81d12f500cbbea1d51ab1f796d6f1575;0xfe9e8b6008d20d16df73abeff74aa7e7;0x6a1a5670b5f550aea53bc79d81e8c928;0x2aaa2780a1fbad895605e6163659f6b7;0xbe2efa901cdcf0312c4d8a6440fb9878;0xc1615ea018b5173aa2953ef2dade2aea;0x55e583b0a5924a82d8dd5280ac7c4425;0x3fffd5c010671a2c7de6951d2d948d0d;0xab7b08d0ad40479407aef96f5b36e3c2;0xd434ace0a929a09f89764df9c1135150;0x40b071f0140efd27f33e218bb7b13f9f;0x54974ec3813599d1ac0a0f2c6cb22fad;0xc01393d33c12c469d642635e1a104162;0xbf5c37e3387b2362589ad7c88035f3f0;0x2bd8eaf3855c7eda22d2bbbaf6979d3f;0x41c2bc8330a92e7487e97c27777f5417;0xd54661938d8e73ccfda1105501dd3ad8;0xaa09c5a389e794c77379a4c39bf8884a;0x3e8d18b334c0c97f0931c8b1ed5ae685;0x7e3d694320ce3458fa0fe93a5aebd91a;0xeab9b4539de969e0804785482c49b7d5;0x95f6106399808eeb0e9f31deb66c0547;0x0172cd7324a7d35374d75dacc0ce6b88;0x6b689b03915283fdd1ec9a314126a2a0;0xffec46132c75de45aba4f6433784cc6f;0x80a3e223281c394e257c42d5ada17efd;0x14273f33953b64f65f342ea7db031032;0xa8ed9c45c16af1619b141e58d8a75e99;0x3c6941557c4dacd9e15c722aae053056;0x4326e56578244bd26f84c6bc342082c4;0xd7a23875c503166a15ccaace4282ec0b;0xbdb86e0570f646c4b0f76d53c36a2523;0x293cb315cdd11b7ccabf0121b5c84bec;0x56731725c9b8fc774467b5b72fedf97e;0xc2f7ca35749fa1cf3e2fd9c5594f97b1;0x8247bbc560915ce8cd11f84eeefea82e;0x16c366d5ddb60150b759943c985cc6e1;0x698cc2e5d9dfe65b398120aa02797473;0xfd081ff564f8bbe343c94cd874db1abc;0x97124985d10deb4de6f28b45f533d394;0x039694956c2ab6f59cbae7378391bd5b;0x7cd930a5684351fe126253a119b40fc9;0xe85dedb5d5640c46682a3fd36f166106;0xfc7ad286405f68b0371e1174b4157134;0x68fe0f96fd7835084d567d06c2b71ffb;0x17b1aba6f911d203c38ec9905892ad69;0x833576b644368fbbb9c6a5e22e30c3a6;0xe92f20c6f1c3df151cfd627fafd80a8e;0x7dabfdd64ce482ad66b50e0dd97a6441;0x02e459e6488d65a6e86dba9b435fd6d3;0x966084f6f5aa381e9225d6e935fdb81c;0xd6d0f506e1a4c539611bf762824c8783;0x425428165c8398811b539b10f4eee94c;0x3d1b8c2658ea7f8a958b2f866ecb5bde;0xa99f5136e5cd2232efc343f418693511;0xc38507465038729c4af884699981fc39;0x5701da56ed1f2f2430b0e81bef2392f6;0x284e7e66e976c82fbe685c8d75062064;0xbccaa37654519597c42030ff03a44eab;0x9319fb8a41d421c2f5283cb0738dbcf1;0x079d269afcf37c7a8f6050c2052fd23e;0x78d282aaf89a9b7101b8e4549f0a60ac;0xec565fba45bdc6c97bf08826e9a80e63;0x864c09caf0489667decb4fbb6840c74b;0x12c8d4da4d6fcbdfa48323c91ee2a984;0x6d8770ea49062cd42a5b975f84c71b16;0xf903adfaf421716c5013fb2df26575d9;0xb9b3dc0ae02f8c4ba32ddaa645d44a46;0x2d37011a5d08d1f3d965b6d433762489;0x5278a52a596136f857bd0242a953961b;0xc6fc783ae4466b402df56e30dff1f8d4;0xace62e4a51b33bee88cea9ad5e1931fc;0x3862f35aec946656f286c5df28bb5f33;0x472d576ae8fd815d7c5e7149b29eeda1;0xd3a98a7a55dadce506161d3bc43c836e;0xc78eb549c0e1b8135922339c1f3f935c;0x530a68597dc6e5ab236a5fee699dfd93;0x2c45cc6979af02a0adb2eb78f3b84f01;0xb8c11179c4885f18d7fa870a851a21ce;0xd2db4709717d0fb672c1409704f2e8e6;0x465f9a19cc5a520e08892ce572508629;0x39103e29c833b50586519873e87534bb;0xad94e3397514e8bdfc19f4019ed75a74;0xed2492c9611a159a0f27d58a296665eb;0x79a04fd9dc3d4822756fb9f85fc40b24;0x06efebe9d854af29fbb70d6ec5e1b9b6;0x926b36f96573f29181ff611cb343d779;0xf8716089d086a23f24c4a68132ab1e51;0x6cf5bd996da1ff875e8ccaf34409709e;0x13ba19a969c8188cd0547e65de2cc20c;0x873ec4b9d4ef4534aa1c1217a88eacc3;0x3bf467cf80bed0a36e3c22e8ab2ae268;0xaf70badf3d998d1b14744e9add888ca7;0xd03f1eef39f06a109aacfa0c47ad3e35;0x44bbc3ff84d737a8e0e4967e310f50fa;0x2ea1958f3122670645df51e3b0e799d2;0xba25489f8c053abe3f973d91c645f71d;0xc56aecaf886cddb5b14f89075c60458f;0x51ee31bf354b800dcb07e5752ac22b40;0x115e404f21457d2a3839c4fe9d7314df;0x85da9d5f9c6220924271a88cebd17a10;0xfa95396f980bc799cca91c1a71f4c882;0x6e11e47f252c9a21b6e170680756a64d;0x040bb20f90d9ca8f13dab7f586be6f65;0x908f6f1f2dfe97376992db87f01c01aa;0xefc0cb2f2997703ce74a6f116a39b338;0x7b44163f94b02d849d0203631c9bddf7;0x6f63290c018b4972c2362dc4c798cdc5;0xfbe7f41cbcac14cab87e41b6b13aa30a;0x84a8502cb8c5f3c136a6f5202b1f1198;0x102c8d3c05e2ae794cee99525dbd7f57;0x7a36db4cb017fed7e9d55ecfdc55b67f;0xeeb2065c0d30a36f939d32bdaaf7d8b0;0x91fda26c095944641d45862b30d26a22;0x05797f7cb47e19dc670dea59467004ed;0x45c90e8ca070e4fb9433cbd2f1c13b72;0xd14dd39c1d57b943ee7ba7a0876355bd;0xae0277ac193e5e4860a313361d46e72f;0x3a86aabca41903f01aeb7f446be489e0;0x509cfccc11ec535ebfd0b8d9ea0c40c8;0xc41821dcaccb0ee6c598d4ab9cae2e07;0xbb5785eca8a2e9ed4b40603d068b9c95;0x2fd358fc1585b45531080c4f7029f25a;0xe53235d7826b4247295078a3e6d9bb21;0x71b6e8c73f4c1fff531814d1907bd5ee;0x0ef94cf73b25f8f4ddc0a0470a5e677c;0x9a7d91e78602a54ca788cc357cfc09b3;0xf067c79733f7f5e202b30ba8fd14c09b;0x64e31a878ed0a85a78fb67da8bb6ae54;0x1bacbeb78ab94f51f623d34c11931cc6;0x8f2863a7379e12e98c6bbf3e67317209;0xcf9812572390efce7f559eb5d0804d96;0x5b1ccf479eb7b276051df2c7a6222359;0x24536b779ade557d8bc546513c0791cb;0xb0d7b66727f908c5f18d2a234aa5ff04;0xdacde017920c586b54b6edbecb4d362c;0x4e493d072f2b05d32efe81ccbdef58e3;0x310699372b42e2d8a026355a27caea71;0xa58244279665bf60da6e5928516884be;0xb1a57b14035edb96855a778f8a6b948c;0x2521a604be79862eff121bfdfcc9fa43;0x5a6e0234ba10612571caaf6b66ec48d1;0xceeadf2407373c9d0b82c319104e261e;0xa4f08954b2c26c33aeb9048491a6ef36;0x307454440fe5318bd4f168f6e70481f9;0x4f3bf0740b8cd6805a29dc607d21336b;0xdbbf2d64b6ab8b382061b0120b835da4;0x9b0f5c94a2a5761fd35f9199bc32623b;0x0f8b81841f822ba7a917fdebca900cf4;0x70c425b41bebccac27cf497d50b5be66;0xe440f8a4a6cc91145d87250f2617d0a9;0x8e5aaed41339c1baf8bce292a7ff1981;0x1ade73c4ae1e9c0282f48ee0d15d774e;0x6591d7f4aa777b090c2c3a764b78c5dc;0xf1150ae4175026b1766456043ddaab13;0x4ddfa9924301b326b24466fb3e7ee5b8;0xd95b7482fe26ee9ec80c0a8948dc8b77;0xa614d0b2fa4f099546d4be1fd2f939e5;0x32900da24768542d3c9cd26da45b572a;0x588a5bd2f29d048399a715f025b39e02;0xcc0e86c24fba593be3ef79825311f0cd;0xb34122f24bd3be306d37cd14c934425f;0x27c5ffe2f6f4e388177fa166bf962c90;0x67758e12e2fa1eafe44180ed0827130f;0xf3f153025fdd43179e09ec9f7e857dc0;0x8cbef7325bb4a41c10d15809e4a0cf52;0x183a2a22e693f9a46a99347b9202a19d;0x72207c525366a90acfa2f3e613ea68b5;0xe6a4a142ee41f4b2b5ea9f946548067a;0x99eb0572ea2813b93b322b02ff6db4e8;0x0d6fd862570f4e01417a477089cfda27;0x1948e751c2342af71e4e69d752ccca15;0x8dcc3a417f13774f640605a5246ea4da;0xf2839e717b7a9044eadeb133be4b1648;0x66074361c65dcdfc9096dd41c8e97887;0x0c1d151173a89d5235ad1adc4901b1af;0x9899c801ce8fc0ea4fe576ae3fa3df60;0xe7d66c31cae627e1c13dc238a5866df2;0x7352b12177c17a59bb75ae4ad324033d;0x33e2c0d163cf877e484b8fc164953ca2;0xa7661dc1dee8dac63203e3b31237526d;0xd829b9f1da813dcdbcdb57258812e0ff;0x4cad64e167a66075c6933b57feb08e30;0x26b73291d25330db63a8fcca7f584718;0xb233ef816f746d6319e090b809fa29d7;0xcd7c4bb16b1d8a689738242e93df9b45;0x59f896a1d63ad7d0ed70485ce57df58a;0x762bce5dc3bf6385dc784413955407d0;0xe2af134d7e983e3da6302861e3f6691f;0x9de0b77d7af1d93628e89cf779d3db8d;0x09646a6dc7d6848e52a0f0850f71b542;0x637e3c1d7223d420f79b37188e997c6a;0xf7fae10dcf0489988dd35b6af83b12a5;0x88b5453dcb6d6e93030beffc621ea037;0x1c31982d764a332b7943838e14bccef8;0x5c81e9dd6244ce0c8a7da205a30df167;0xc80534cddf6393b4f035ce77d5af9fa8;0xb74a90fddb0a74bf7eed7ae14f8a2d3a;0x23ce4ded662d290704a51693392843f5;0x49d41b9dd3d879a9a19ed10eb8c08add;0xdd50c68d6eff2411dbd6bd7cce62e412;0xa21f62bd6a96c31a550e09ea54475680;0x369bbfadd7b19ea22f46659822e5384f;0x22bc809e428afa5470724b3ff9e6287d;0xb6385d8effada7ec0a3a274d8f4446b2;0xc977f9befbc440e784e293db1561f420;0x5df324ae46e31d5ffeaaffa963c39aef;0x37e972def3164df15b913834e22b53c7;0xa36dafce4e31104921d9544694893d08;0xdc220bfe4a58f742af01e0d00eac8f9a;0x48a6d6eef77faafad5498ca2780ee155;0x0816a71ee37157dd2677ad29cfbfdeca;0x9c927a0e5e560a655c3fc15bb91db005;0xe3ddde3e5a3fed6ed2e775cd23380297;0x7759032ee718b0d6a8af19bf559a6c58;0x1d43555e52ede0780d94de22d472a570;0x89c7884eefcabdc077dcb250a2d0cbbf;0xf6882c7eeba35acbf90406c638f5792d;0x620cf16e56840773834c6ab44e5717e2;0xdec6521802d592e4476c5a4b4df35949;0x4a428f08bff2cf5c3d2436393b513786;0x350d2b38bb9b2857b3fc82afa1748514;0xa189f62806bc75efc9b4eeddd7d6ebdb;0xcb93a058b34925416c8f2940563e22f3;0x5f177d480e6e78f916c74532209c4c3c;0x2058d9780a079ff2981ff1a4bab9feae;0xb4dc0468b720c24ae2579dd6cc1b9061;0xf46c7598a32e3f6d1169bc5d7baaaffe;0x60e8a8881e0962d56b21d02f0d08c131;0x1fa70cb81a6085dee5f964b9972d73a3;0x8b23d1a8a747d8669fb108cbe18f1d6c;0xe13987d812b288c83a8acf566067d444;0x75bd5ac8af95d57040c2a32416c5ba8b;0x0af2fef8abfc327bce1a17b28ce00819;0x9e7623e816db6fc3b4527bc0fa4266d6;0x8a511cdb83e00b35eb665567214176e4;0x1ed5c1cb3ec7568d912e391557e3182b;0x619a65fb3aaeb1861ff68d83cdc6aab9;0xf51eb8eb8789ec3e65bee1f1bb64c476;0x9f04ee9b327cbc90c085266c3a8c0d5e;0x0b80338b8f5be128bacd4a1e4c2e6391;0x74cf97bb8b3206233415fe88d60bd103;0xe04b4aab36155b9b4e5d92faa0a9bfcc;0xa0fb3b5b221ba6bcbd63b37117188053;0x347fe64b9f3cfb04c72bdf0361baee9c;0x4b30427b9b551c0f49f36b95fb9f5c0e;0xdfb49f6b267241b733bb07e78d3d32c1;0xb5aec91b938711199680c07a0cd5fbe9;0x212a140b2ea04ca1ecc8ac087a779526;0x5e65b03b2ac9abaa6210189ee05227b4;0xcae16d2b97eef612185874ec96f0497b]].

(** gost_grasshopper_galois_precompiled.c:9-11 *)
Definition grasshopper_galois_alpha_to : list N :=
  [1;2;4;8;16;32;64;128;195;69;138;215;109;218;119;238;31;62;124;248;51;102;204;91;182;175;157;249;49;98;196;75;150;239;29;58;116;232;19;38;76;152;243;37;74;148;235;21;42;84;168;147;229;9;18;36;72;144;227;5;10;20;40;80;160;131;197;73;146;231;13;26;52;104;208;99;198;79;158;255;61;122;244;43;86;172;155;245;41;82;164;139;213;105;210;103;206;95;190;191;189;185;177;161;129;193;65;130;199;77;154;247;45;90;180;171;149;233;17;34;68;136;211;101;202;87;174;159;253;57;114;228;11;22;44;88;176;163;133;201;81;162;135;205;89;178;167;141;217;113;226;7;14;28;56;112;224;3;6;12;24;48;96;192;67;134;207;93;186;183;173;153;241;33;66;132;203;85;170;151;237;25;50;100;200;83;166;143;221;121;242;39;78;156;251;53;106;212;107;214;111;222;127;254;63;126;252;59;118;236;27;54;108;216;115;230;15;30;60;120;240;35;70;140;219;117;234;23;46;92;184;179;165;137;209;97;194;71;142;223;125;250;55;110;220;123;246;47;94;188;187;181;169;145;225;1].

(** gost_grasshopper_galois_precompiled.c:12-14 *)
Definition grasshopper_galois_index_of : list N :=
  [255;0;1;157;2;59;158;151;3;53;60;132;159;70;152;216;4;118;54;38;61;47;133;227;160;181;71;210;153;34;217;16;5;173;119;221;55;43;39;191;62;88;48;83;134;112;228;247;161;28;182;20;72;195;211;242;154;129;35;207;218;80;17;204;6;106;174;164;120;9;222;237;56;67;44;31;40;109;192;77;63;140;89;185;49;177;84;125;135;144;113;23;229;167;248;97;162;235;29;75;183;123;21;95;73;93;196;198;212;12;243;200;155;149;130;214;36;225;208;14;219;189;81;245;18;240;205;202;7;104;107;65;175;138;165;142;121;233;10;91;223;147;238;187;57;253;68;51;45;116;32;179;41;171;110;86;193;26;78;127;64;103;141;137;90;232;186;146;50;252;178;115;85;170;126;25;136;102;145;231;114;251;24;169;230;101;168;250;249;100;98;99;163;105;236;8;30;66;76;108;184;139;124;176;22;143;96;166;74;234;94;122;197;92;199;11;213;148;13;224;244;188;201;239;156;254;150;58;131;52;215;69;37;117;226;46;209;180;15;33;220;172;190;42;82;87;246;111;19;27;241;194;206;128;203;79].

(** gost_grasshopper_defines.c:14-47 *)
Definition grasshopper_pi : list N :=
  [252;238;221;17;207;110;49;22;251;196;250;218;35;197;4;77;233;119;240;219;147;46;153;186;23;54;241;187;20;205;95;193;249;24;101;90;226;92;239;33;129;28;60;66;139;1;142;79;5;132;2;174;227;106;143;160;6;11;237;152;127;212;211;31;235;52;44;81;234;200;72;171;242;42;104;162;253;58;206;204;181;112;14;86;8;12;118;18;191;114;19;71;156;183;93;135;21;161;150;41;16;123;154;199;243;145;120;111;157;158;178;177;50;117;25;61;255;53;138;126;109;84;198;128;195;189;13;87;223;245;36;169;62;168;67;201;215;121;214;246;124;34;185;3;224;15;236;222;122;148;176;188;220;232;40;80;78;51;10;74;167;151;96;115;30;0;98;68;26;184;56;130;100;159;38;65;173;69;70;146;39;94;85;47;140;163;165;125;105;213;149;59;7;88;179;64;134;172;29;247;48;55;107;228;136;217;231;137;225;27;131;73;76;63;248;254;141;83;170;144;202;216;133;97;32;113;103;164;45;43;9;91;203;155;37;208;190;229;108;82;89;166;116;210;230;244;180;192;209;102;175;194;57;75;99;182].

(** gost_grasshopper_defines.c:51-84 *)
Definition grasshopper_pi_inv : list N :=
  [165;45;50;143;14;48;56;192;84;230;158;57;85;126;82;145;100;3;87;90;28;96;7;24;33;114;168;209;41;198;164;63;224;39;141;12;130;234;174;180;154;99;73;229;66;228;21;183;200;6;112;157;65;117;25;201;170;252;77;191;42;115;132;213;195;175;43;134;167;177;178;91;70;211;159;253;212;15;156;47;155;67;239;217;121;182;83;127;193;240;35;231;37;94;181;30;162;223;166;254;172;34;249;226;74;188;53;202;238;120;5;107;81;225;89;163;242;113;86;17;106;137;148;101;140;187;119;60;123;40;171;210;49;222;196;95;204;207;118;44;184;216;46;54;219;105;179;20;149;190;98;161;59;22;102;233;92;108;109;173;55;97;75;185;227;186;241;160;133;131;218;71;197;176;51;250;150;111;110;194;246;80;255;93;169;142;23;27;151;125;236;88;247;31;251;124;9;13;122;103;69;135;220;232;79;29;78;4;235;248;243;62;61;189;138;136;221;205;11;19;152;2;147;128;144;208;36;52;203;237;244;206;153;16;68;64;146;58;1;38;18;26;72;104;245;129;139;199;214;32;10;8;0;76;215;116].

(** gost_grasshopper_defines.c:88-91 *)
Definition grasshopper_lvec : list N :=
  [148;32;133;16;194;192;1;251;1;192;194;16;133;32;148;1].

