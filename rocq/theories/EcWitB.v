(** Witnesses for checking the table of ecp_id_GostR3410_2001_CryptoPro_B_ParamSet.c (EcTableCheck.v): slopes, quotients and intermediate points. *)
From Coq Require Import List Uint63.
From Verif Require Import IntPoly EcTableCheck.
Import ListNotations.
Local Open Scope uint63_scope.
Local Notation V := unp2.
Definition wit_B_64_0 : colwit ipt wit := mk_colwit (V [0x3264;0x0;0x0;0x0;0x0] [0x39b4ca8f39889;0xdaece8d778222;0x49c7d24584f66;0x9721f3b1a3b3b;0x589c24f0edb8])
 [[0x0;0x0;0x0;0x0;0x0];[0xffffffffff367;0xfffffffffffff;0xfffffffffffff;0xfffffffffffff;0x7fffffffffff];[0x1;0xffffffffff367;0xfffffffffffff;0xfffffffffffff;0xfffffffffffff;0x7fffffffffff];[0x1;0x0;0x0;0x0;0x0;0x3000000000000];[0x1;0x0;0x0;0x0;0x0;0x2000000000000];[0x1;0x0;0x0;0x0;0x0;0x1000000000000]]
 [[[0x843223a085193;0xc3620f705a93e;0x797ac926fcb10;0x45e95d8992dd8;0x44ed3cb4b6da];[0x1;0x608eb62c3e42e;0xff71b5528e0b8;0xf7c624367db82;0x9f5c1d94331dd;0x8c4c8fd2cdb99;0x1];[0x1;0xadf85b75f1af;0x30a80715db667;0xa6fda49ab8b;0x7fb7827e03eba;0xf4920f07b5a3];[0x0;0x762e7d2abb061;0x4c041b84a1f63;0xe2b5175a1186a;0xddf7da94f59b3;0x896bca604e337]];
 [[0x23822fd71de1f;0x5149f533cf9dc;0xf26012ec3dba;0xa0533ff41341b;0x6eb93fb17698];[0x1;0xddfc9abbd66c0;0x96f61f2757db7;0x40e7e2ce00ab7;0xc9d51dff09a7a;0x33b6008234ca9;0x1];[0x1;0x708bed5eb5a97;0x433bc37f59b69;0xd829e8be66d7b;0x8c103cf5a2964;0x28e1e3bea7cc];[0x0;0x5e0118f74d5b1;0xa2fe65f9568db;0x6aa84eee733ab;0x1d67d140a97f1;0xd46db31b467e4]];
 [[0xef3ae98caba8c;0xffdfcbed5d438;0x49b41dafedd41;0x33b6a04038bbe;0x45fab38ef8cd];[0x1;0x11091780aa358;0x790d9deeadaf5;0x3fdda5df8aadf;0x6d6004278f755;0x82b2d9ab4756e;0x1];[0x1;0xd4c111dac94f0;0xf472165b579a4;0xe0441026e47e4;0xbbde794b29e85;0x10c8bf997b559];[0x0;0xafb579e8e44cc;0x9d459d8e4303e;0xc5a4f0129138a;0x17fb667cac905;0x75fc298031fee]];
 [[0x471d4ae75cdb2;0xc5f54c8d858bc;0xff0270717d8ba;0xc08511b5e1a3a;0x1afc73be24be];[0x1;0x5bb040a2167a4;0x2f870028056a;0x192ed090cc7e0;0xb567b7cabf79a;0xd5c052d04ac52;0x1];[0x1;0x60cd87f5abb9c;0x689c96f28f16a;0x4986a7969c88b;0x63ddff729fd15;0x1526dc9ee8b67];[0x0;0x142066df4d2e;0xf536272167e9e;0xc75986da89ac8;0xce3a1b378d1bc;0x2405b351e2e83]];
 [[0x335c46ebd85c2;0x651c0fa6e1615;0x7e0e063bfaafc;0xd9ef524d267d8;0x6e9daa69aeed];[0x1;0x99ac29fb303a8;0x3a23662c76282;0x5cc20f538f1c7;0x82e9d3227d685;0x35f1276c72fee;0x1];[0x1;0x595642b8225c;0x74ab3240b064d;0xaad804e118a23;0xbcc5ed53d2a29;0x7975d57ce91d];[0x0;0x7a49bada957e4;0xd065b918ac72e;0xd0d99db646d2f;0x11f23a8001d66;0xd3c0b2ed5fc93]];
 [[0xcf0384f340720;0x5dceca1480f32;0x3bf018b1fefc1;0xad488db79da4a;0x1268ce99e48];[0x1;0xc01bd7cf85d60;0xfe3ffd4c89ef8;0x36051318d808e;0xe996e0a656b1;0xb2d0e0b2a7d6;0x2];[0x1;0x1bf0bc0209c00;0x90985ffd00d96;0x846a6308be0b7;0x87876e76806af;0xbc5768b0dde1];[0x1;0xea2e863ac6920;0x9b2dc15babc53;0x381df879c36ce;0x159a234267060;0x136dbc2d8b687]];
 [[0x83014efcb97b4;0x40f912bbebfa3;0x5bba19baf0251;0x47daf8047eed6;0x337102a493fc];[0x1;0xb5cc226da3b44;0x91c70c6dbbbf0;0xb0f75e2d02ba8;0xb0894a425b7ab;0xaa3d38d8e167f;0x1];[0x1;0xc896870b76af0;0x142ebe6944120;0x461b976e37e4b;0xd578c6d3e49ba;0x126cfbb89a09f];[0x0;0xd6db8c511c3b8;0xdea6f9a8e61e8;0x6dfb03f81a5f8;0xf0168325a9274;0x51f6461d0a255]];
 [[0x2a7b07b3cd77b;0x40af20869f6d9;0x66b5948ba2a06;0x51082692f3a3;0x2777f43fd12];[0x1;0x7bc2e4c4ea10;0x5a7448495a0bb;0x37de0bb03c9a0;0x4c808a4fc4e27;0x72b7e0e43eab;0x2];[0x1;0x4dbdc11a1237f;0xba97dea931eb6;0xec7c254c2cd95;0x413a64378ea82;0x1abc559e8e7e9];[0x1;0x1d80b2047cdd5;0xb63e756c677fe;0x9a4a06f2acdeb;0x52d1cdbb59381;0x1784df86e6588]];
 [[0xdbcdef08e6997;0x5e6db610d232e;0x9352509b853c6;0x6e77584a54705;0x6402a6262b18];[0x1;0xf8e29675d85c0;0xa230d775a7;0xb7188711703a7;0xd937e9df6970c;0x44d1af562fdda;0x1];[0x1;0x51924d31daec7;0xfd3f251937289;0xd09cd43adbf44;0x449811a3e47b7;0xdf80b213b70c];[0x0;0xb3b55f9dc68d8;0x3da476dc9147a;0x6d7f0ad42219d;0xdc5d64473c5b2;0xbe2cd5f069bdd]];
 [[0xdab517b059192;0xc14c082fb5683;0x9cd1c8e07494;0x4fdbd3a67f100;0xcf630c9fe9c];[0x1;0x549500de56c02;0x9f8ca1fd4395d;0x7d6b677041d33;0xbf9cc2a402825;0xfa27cc1a4ded0;0x1];[0x1;0x1afb4b76c281c;0xfe7681dfe2d09;0x2d5cc2d4ae1ef;0xf4786f1522008;0x13e3604f6d8e7];[0x0;0xa798de4e3467e;0xd4c386e2a4d94;0x7fc2bfba3b271;0xd3b4cfd01d919;0x5d6ccf29009c]];
 [[0x4a3cb08cf8912;0x3eec54dcf0d9a;0xf4633c01102c6;0xccc8e8247fc1f;0x5489de6012ee];[0x1;0xebea2e21967d6;0x3c2d3a45dfd03;0xb70ba825f7d8f;0xdd91be3abb491;0x63f45e00262a2;0x1];[0x1;0xd88ef75df6a1c;0xfe03447908c9f;0xe47fa8385a3f3;0x7d356f0294377;0x188abe3aa73da];[0x0;0xe6993a579b150;0x895e92efbb739;0xc33e75b0be8b7;0x682441c975210;0x9c455a1594a70]];
 [[0xb610aa29ec7b7;0xf8f7110038190;0x90e49d9e16745;0x355f41d3c7ca1;0x4fe1550a5639];[0x1;0x260dbd38e0214;0xb09a637dbb78a;0x4f809b787501;0x7464dc3f1fe2d;0x74f88131acccc;0x1];[0x1;0xc3283f7359b07;0x9604194dc2361;0xb3ce9893736c1;0x9124501b3b00e;0xbbb0180ecebf];[0x0;0x509ccd890276f;0xdb24f28206d51;0xdc33747946bfa;0xd70262816a90e;0x9de71ec36ce54]];
 [[0xf85a74ad667cb;0xaf69974015c0e;0x8e2d73fa271d4;0xbbbe81bdbf295;0x2802da8561d6];[0x1;0x9eeddc690060c;0x18c1651d0e4d6;0x5280846527beb;0xc6322c1a78360;0xc4313f32c8b45;0x1];[0x1;0xc14b7cf56029f;0xd4a750d00b65d;0x349f136df3a24;0x468335e299709;0xa92d6334aa79];[0x0;0x44f705496d6b1;0xe89bee8f95441;0x3a4bbfd7417b1;0xd79e079268f0a;0x3f076e8d5a65f]];
 [[0xe0843ce931ecb;0xb2240879f93b7;0xb62f9a87de;0x5a79221426136;0x375d9d357d9d];[0x1;0x308f0f886ae86;0xf55e23b953e41;0xc634a801df1e4;0xbcc2b578cd581;0x9d13ebb6ffdcb;0x1];[0x1;0x6f59bcb34b89f;0x57392072d75fe;0x6c714dd6d452;0x414235cb91b85;0x11184660e8e22];[0x0;0x6a6be0f1c835f;0x77c0bd2873e77;0x8b6cbf8270af4;0xb172c0b00f7ce;0x5d5e8edb4b904]];
 [[0x50952051d74f5;0x150e78388b534;0x7da12e1994aea;0x4488b15f6ca2e;0x55dd70611f4d];[0x1;0x8db610db4a72e;0xb760115bf7b2a;0x65c19ad5b7a43;0x9861b9e5668c6;0x664b8db3221f3;0x1];[0x1;0x49cd4591f1f1f;0xbd323d621e9ba;0x45ba1a2bedc0;0x5346b3c5f1828;0x1550811f5b115];[0x0;0x843c35fe7ff08;0xe303f03c216fd;0x71d7d773df62e;0x21dedc5e843c5;0xa1ef7069eeda8]]]
 (V [0x10c3af6fa9333;0x155c3eebd53c9;0xdd7eb21ea9a27;0x7f7e57fb8ae9;0x24d8a1cbe4a8] [0x7999b4aa31a5a;0xa5919ed179ed4;0xba450046e6265;0x1273391037dc3;0x66d589f08d84]) [[0xf096085a63c3f;0xbe1f20d68ca9c;0x8e05b8dba73e2;0xc5423f5ed4e85;0x303e5d82ec3a];[0x1;0x12d6352dad0c;0xcbc5c91910265;0xa78862b99b9d2;0xb01d683b59748;0xaaeb3c24d978d;0x1];[0x1;0xbb3f907e2f4d7;0xe71d49f7864e0;0xa2495eecb15e8;0x8efe4d89ef2e6;0x22b871b59d7ec];[0x0;0x12203e1d48bf6;0x98fd9f92d030f;0x49ac406270642;0xc8f897cc146be;0x524b0410c4143]]
 [((V [0x906f146bc8a73;0x21bb5f0987884;0xed4585b94c774;0x9deedf29d5fbb;0x6b93722f6939] [0xdd8463c588584;0x4449390e09982;0x649c284280eb0;0x7de5895955a64;0x3be6ff0be015]),[[0x5ff5f16a79eaf;0x404863cae1331;0x5064afa53f20b;0x3d1e6d817f678;0x6a65f826af47];[0x47db07c2e71b6;0xf010830139d9e;0x603396f8d332d;0xb9ffb216250bb;0x4f9f3a2b0b25];[0x1;0xeec222549ef;0xff2030a7615ce;0xb62c88c764dd3;0x8697cf1868c9;0x94a32ab08905];[0x1;0x3fe6a52ef2d14;0x898c846b2f01f;0x348ff07f9c227;0xe18734eaaff71;0x132c5d8d489ef];[0x1;0xa704576f37bb7;0xc14b6329804b4;0x649e8f013562;0xcf316bc81e258;0x112183752d4a2];[0x0;0x4768b4e991cf;0xe11acb0837511;0xeccceb779032e;0x2076d167eb5dc;0xc36e0dde9909b]]);
 ((V [0xa5f5b79c827c4;0xa2731c2754f68;0x6b452dbb5bac3;0xfdb8f5b8967ee;0x3f8224110aec] [0x1ea5f206e87bd;0x43d7d8b41f27d;0xa22d9b1ffa6d6;0x66c4ebb3039c2;0x4e29bf574b4d]),[[0x3abf59500844;0xbec6ddb01b973;0x1289aa875464;0x183ca27d62262;0x106d089c437f];[0x1f1e448bf909b;0x7dbcfc0e103bc;0xc5873e5d75aab;0xfc96987fa7c5d;0x3b4c7fae955e];[0x1;0xd8f7644b36a6f;0xc6a5e89789d51;0xdcce5ff9b6aa8;0x6fccd51aafb99;0x1c2fd29d3c0f];[0x1;0xc8fb5aef7ace0;0xea91d49259fd7;0xa1a4d3f426a9a;0xf66cf729522fe;0x1546b30db05de];[0x1;0xfd1f7e26f6370;0x5ceacb089ea1e;0x2de3701520faa;0x71746bca3b2ac;0x22b3671d7ff29];[0x0;0xd0fa5f1a2a4a0;0x13b174c2391e0;0xb7e12fb5d20a4;0x231270bf946d5;0x10f9452d58f78]]);
 ((V [0x8513a595815c0;0x1c5047dce0b07;0x11b485657df1c;0x45374ea1857a8;0x90addf3112] [0xd6ab8c00344c;0xa0af7c114fee5;0x35565b178bd8;0x8ea7ded2f4fe;0x184f1febe118]),[[0xeeddfa266e73e;0xeae622f1161fe;0x731d632201e75;0x43fd93b255cbd;0x4b9626730e4b];[0xbbcd761f1e5f6;0xd32c3011444b5;0xeb4e4349a90a2;0xfefddd2694b7c;0x1c95c1c91468];[0x1;0x2354c7cfd0770;0x1493edb341562;0xf7f2645241fcc;0xea6c121e28916;0x19a8e3c01548];[0x1;0x6ab08fd563294;0xb95385b8bffab;0x80b967a849229;0x14b990910d3e4;0x4f323dae6b8a];[0x1;0x4cb0c7584765c;0x2b1a4a29a884e;0x620618423a36e;0x15558f88dff41;0xd28746d18fe2];[0x0;0x7f83841dff2b6;0x1b5295a17d91c;0x91953297bf2fb;0xc20bdaa88723b;0x91694876e7a08]]);
 ((V [0xba4dc0d3debe4;0x2e9d2a10165f9;0xba2149ba70030;0x563030b2bb432;0x436a246fe557] [0xc680db96863fc;0xd89ab75b7a715;0x4bcce27a662b0;0xe6cb6e0eaf29c;0x5ceef5a5f3ec]),[[0x1943123446f00;0x2d31a3392730b;0x5b9a9ae132ef3;0xd8da6382eb937;0x20591340c636];[0x8dd9ed1e11a55;0x97a52477bb4dc;0xaf2c555e82fd4;0x6eff9a9d15228;0x63a2d2cd6c12];[0x1;0xc1a0f0c447000;0xc8537bf68f7e3;0x5775126372ede;0x9f11073691fc3;0xc7450212b5c7];[0x1;0x88a82beedd800;0x9c8c1bcf93f8b;0x8e44f8ca3fc39;0xfd85117d06d81;0x249878b821bf9];[0x1;0x96a41b370000;0xa2f622fcd10cb;0xb65e164bec66e;0x54eb284c3e449;0x80ea38bf62e3];[0x0;0xd6556a3d65300;0x54ad2ba76151d;0xa08ac6ff8c9d6;0xacf3b0f822016;0x3301a6d4f297f]])]
 [[0x9b1dbc8c33fbe;0x1aea7f629c63;0x9384d7661c878;0xe7f19e9960dc;0x4bebf06f0367];[0x9a58aa3ef16ce;0xfafd12e3ceede;0xcec7be25c8093;0xb380177ce42d6;0x1e45d78f314b];[0x1;0x5e897132d2a70;0x37e1160912632;0xfcde81d200814;0xcd4c7d4eb1558;0x190a38f4dacc];[0x1;0x1937ccfc4370;0xead4b2979523;0xe3adb8bfff30c;0xb4fb5090e9c66;0x47646aed63ff];[0x1;0x96938ca04a85c;0x58035c674cdcb;0x532f8a805f448;0xd543791bf6b5c;0x1cce8243b8349];[0x0;0x3fbf4bbad6e74;0x227e9d9c665ee;0x532d4de4b8f59;0x7a8430950e07f;0x8e9506217bd39]].
Definition wit_B_64_1 : colwit ipt wit := mk_colwit (V [0x21024d91ccb35;0x3b2d9ec7f778;0xc6784f214b92d;0xd7949911aaa15;0x347319c0feef] [0xec1fcf339bb78;0xcfb9380c3ea95;0xe7aee854ef823;0xee5b48903594d;0x2503d7350be1])
 [[0x7590cd2e558c6;0xd0f3c6a72dde9;0x97fb9a059bd6a;0x8c9c6f7e81728;0x3af3da9c6fb4];[0x32936aca89bd5;0x4121febca614;0xeeb7f19ed9eae;0xd13d3d0fef7b;0x7f2cab83891c];[0x1;0x24eec6275f8a7;0x873066308f2c7;0x20617e0cced55;0xe19102f3e7389;0x914f2512641b];[0x1;0x877c0d46cef40;0xc63977154233f;0x457550e1c0210;0x84b80c8bfbca0;0x2f74b92a5050d];[0x1;0xb10aa0eb3cb3c;0x8736747b32229;0xce05fe6fb8efc;0x2c6c63bf50ee2;0x2264eeb1bfba3];[0x0;0x22e7a1e0496d2;0xbbcaf998403e5;0x6da7eedb7f05;0x7be7413b51dd4;0x765836447b9d7]]
 [[[0x28f5b8be85c92;0x514705a189057;0x22dede3a85559;0x7ad0a339c4f83;0x78ccd64f9f81];[0x1;0x2e39965698d92;0x64473c7e0bc8e;0x72c335a279d2d;0xd0bd867b6900e;0x1ed798d65831e;0x1];[0x1;0x7c40fefedbc1c;0x85dce659df9f9;0x8379fee114d4;0x2a54bcaf9406f;0x179457bb96aa2];[0x0;0xbc11c86cd9f3c;0xa1c9164e20116;0x4dc0bd5c98fe1;0xb1b98c4cd835a;0xf25343ac7bbc5]];
 [[0x4644c4c4e9764;0xedc17bcf3ca20;0xf02b0abfcca89;0xfe92aa59f9a37;0x3ec1c7e6fb85];[0x1;0x1c8463db7cf50;0xff8d9ed137481;0x6ddca6e3304e6;0x907b78636de74;0x8b0686b53ead9;0x1];[0x1;0x9edb744b0e70;0xa172c8fd0b686;0x1d4e26a7e3575;0x6334a09d45c17;0x13909ec329e67];[0x0;0x8459f1cfac9ec;0x25bcee7c96346;0x986912d462442;0x628d109854323;0x6f273da0b29b6]];
 [[0x222fcccca2ace;0x86a8809cb6bfb;0x5553144fcd0ec;0xc0f1d3e34e22c;0x339cd8f24ab1];[0x1;0x8ab2794fb385c;0xe0443857171b6;0xfb9c36d4f5267;0xf67e3caafeaa7;0x9f9bd55d933ef;0x1];[0x1;0x1b1450698dd9c;0x708b56cc71330;0xde4dd526d7167;0xeef682d4d0003;0x19d52127871b0];[0x0;0xea84826b729c4;0xf786f024f290b;0x6ad5ec8001ce;0xf054796916d02;0x5a21ea6f923ae]];
 [[0xdedd35be79328;0xe732f47d6c2aa;0x6b5fbe779bb15;0xc54f753adb620;0x242c6d1e01ec];[0x1;0x636952daa2548;0x3c727b68d8422;0x2529ba8613fe;0x2f4e7ed30f35f;0xc72bfaa532248;0x1];[0x1;0x3590e860bafc0;0xedde9f3a26491;0xad20b7f171028;0x2504331083dc6;0x1aacc1bc6669c];[0x0;0x52c676303a140;0xab71dd9118848;0x46ba98170694;0x4323eabfa9e3c;0x473f4415467ac]];
 [[0x83342c3bf4fe5;0x3d255e1755af4;0x287ad289bd5e3;0x3102d9066a873;0x5487ee7fc796];[0x1;0x17fec230a2c86;0x46f6b99612c06;0x230e9f28b8a98;0x74bba7c3243e4;0x65610cf428b7f;0x1];[0x1;0xe92e581888fbf;0x27149ba9abd4f;0x62639681866a9;0x71a094780778f;0xc0af5c66c6ff];[0x0;0xf34e8ddc9e79d;0x80416aae9f329;0xb49f0aaa0e61d;0xb3868b539e0c6;0xa42c073b1cf7b]];
 [[0x7a06417fc85ea;0xb1b474b9b835a;0x16a24604d0093;0x4d952d9f7ba03;0x51a62be4decc];[0x1;0xd5d4432a6819c;0xb501daed3bb63;0x8c9d5c70d340f;0x8bd2e6cdeba8a;0x60ce22c00afc4;0x1];[0x1;0x7b64c5dabcc7c;0x218a5c6d8ec5a;0x85b6a35b1c576;0x7ce9eca81e93f;0x14007e74b86c1];[0x0;0x5a906b54ba706;0xf302d98882725;0x4d1f4c9323ac3;0x205a50e26aed2;0x8d7d1eada834c]];
 [[0xe0d7e96ba4f60;0xc0fb237b293df;0xc1977b168c100;0xaa9f510ec0cd0;0x54630a4cecf4];[0x1;0x8370d46c16400;0xa77879291f326;0x27bb9c2c11251;0xbe0c8dcbe6a2c;0x5b8fe9be3e497;0x1];[0x1;0xc47c3885fc00;0xc022e5baceb0a;0xc35ec7f4f667f;0xe3d2dfe309c9;0x131f481c49af2];[0x0;0xb12e52a05a6e0;0x1551b80d873c0;0xf14c0175d278d;0x7eaf4acdbc6bb;0x9cadd8fe47b2e]];
 [[0x8fb6ec71dffd2;0x5671e7aa6afc3;0x844fc46242d77;0xc6ef9cf14fabb;0x38a8bf3536c4];[0x1;0xca020a27269d8;0x198e3c3618b0a;0xb1e647b775162;0xcc08de299ac0c;0x973a6b75d5af5;0x1];[0x1;0xd54e9b7baaf1c;0xfc6e6d9f5dfae;0x22a3f3ade99e7;0x388bd3ee62341;0x15fba1484f22b];[0x0;0x6ce6fd659bc9c;0x8b72ba1096992;0x493ce071b905b;0x922b00a1a7abd;0x63bcfbe3dc720]];
 [[0x825de6032729;0xc861b9d8c20df;0x4046108707aa0;0xd673fd712ebf9;0x46bbb8e03be3];[0x1;0xd1915c6a7e067;0x1f6516e83ba96;0xbc3b194020115;0x3ab367f3e994f;0x7e107a3b7d483;0x1];[0x1;0x59185bd5a0547;0x68a05c3ebd3c4;0x3a23bedf93e9c;0x471a3b46223d7;0x12d1cc53e8687];[0x0;0xc548ebb81b0f;0x993e4206df8f9;0x622632370d5c8;0x5a45b6d9dcf18;0x8b3c0a8398365]];
 [[0x9671798648d4a;0x295ef4f7dc8e8;0x7e83370ab587c;0xd023b8aef852b;0x31bc6fd02ce];[0x1;0x78165995e3c7a;0x24c04f48266a0;0x8993d34da3e2b;0x12d7350a54348;0xa6ecfe2451ad;0x2];[0x1;0x4d3e7aa1100fc;0xe77b2c2f9ad78;0xce433c04bb032;0xeaaee31de1c3c;0xf293c29dfdab];[0x1;0xdb50cf4872ad8;0xf1433db6e2c96;0x959daace556c8;0xa2c1461c5407f;0x6c246e50e595]];
 [[0x40ecd98730723;0x32b8a810001d;0x1002a700097ee;0xd1afd3d82e625;0x65b6c6bd2e6e];[0x1;0x56dfef1c35e42;0xf35d28e35b2dc;0xb2822d0fb6ca6;0xabf1ffed34310;0x3a2c3f501f10f;0x1];[0x1;0x8bdb6a2cf5e4f;0xacade18efaa72;0x171f017559a26;0x6e64279f8bc46;0x15f819bd908c2];[0x0;0xbe58b8540aaef;0x7f5fd1722344e;0x618c939950781;0xe5fe3c6e075b8;0xc25932867cd1b]];
 [[0x1aab6e77031e5;0xa24d55af062e9;0x128b56329d1e9;0xabad244571bba;0x48dbe368100c];[0x1;0x65fccc8bc74ba;0xa31f6b2d6aa93;0xa3f9ad5b9cd8d;0x7d187914565d0;0x7b6799ec02acd;0x1];[0x1;0xdddce8f711bbf;0x1aa03679580be;0x8facb96e0450d;0x48280082917ac;0x1c11e12e9a454];[0x0;0xda2c1a105cacd;0x72c6c7193ec94;0x6e1d43ccdd7ab;0x6d5f82f2fdb03;0x8d8b04fd4b4bf]];
 [[0x67bd26f6e8e27;0x24f19935ba04f;0x1097bc9eb28d5;0x3c59426c183f9;0x7dfd148259b3];[0x1;0x9f85e97810206;0xfe3e4b2037c86;0x6e576803b9cf8;0xd650d6f73090a;0xf304d2edefad;0x1];[0x1;0x940b6cfcb18e7;0x9a52e2df84320;0xc505c8d4447dc;0x82c6e26f11bc6;0x17c6c8331f72e];[0x0;0xba28e4b2a1e60;0x5dd65b67f4475;0xcb1c55c05e62c;0xcd711d1eed444;0xf63e7b875e6ba]];
 [[0x997ad968d1be9;0x3e1b32d525096;0x1dcb93fe7f2fb;0x4848cbe4c1b2b;0x684a1012ee91];[0x1;0xefd13f259e803;0xa6274127561ae;0x463576c818f9c;0x835dcb93883a7;0x3752a2b0bb88b;0x1];[0x1;0x44905c2cf3c7;0x1572fe164507d;0x484d4b7bb8f3f;0x30f9c8bfd10af;0x1b19718fb89f3];[0x0;0xbe35619a318b3;0x167c2c5b6ef5f;0x3fba4f60f1fc;0x122dc65c032a6;0xc3219c4006246]];
 [[0xb87165ca0693d;0xb9a4506acadd4;0xa3238d605a34d;0x343eff6dd7bfd;0x2278818c2549];[0x1;0x10ac3613e1c6d;0xc0219105a661e;0x5a7272e93e0bc;0x331ef1b6e1d12;0xc32d2173ca9ee;0x1];[0x1;0xef2936fe18e8f;0x172632a97f6e;0x2108dfd8fe2cd;0xa95f77519d307;0x162deb97a81cd];[0x0;0x63f47c62a69ea;0x3cfd10f0507f;0x7fc6e90941c97;0x69094fc9abdc2;0x31dd49e9d4274]]]
 (V [0xfe23d7faa8b71;0x5026469a9d223;0x7cc3477f3e2ca;0xed86de8d2ffb6;0xdb1f1f56bf5] [0xd76891bc29187;0x2f038c1f63600;0x98b5cb6b48a0a;0x8529790c7f885;0x636f28852ca6]) [[0x6329a5e936eaa;0x5a25d7864b4c7;0xa873623b02b09;0x731860aa4d68f;0x5bc369c28e97];[0x1;0x3017ce8c5812c;0xab1a67a1bfbca;0xf6c47eff0a925;0x42338791f115a;0x43daeec68770c;0x1];[0x1;0x836eb39c7657c;0xc45de5779c0a4;0x291e8a1156deb;0x996de08f03d3e;0xfbc765dd55ff];[0x0;0x776353e071afc;0xb471358205c01;0x3752314f55ce;0x917795ddbaab2;0xa61ecf7ef89cd]]
 [((V [0x3392b7bef9d16;0x19d2f6e7a8a1f;0x7a8ca04e69cf8;0xdaa9746a64c73;0x6c7c38ce36ad] [0x44a2873360b0b;0x747720341cb45;0x5372c9b04a978;0x379f17a22ecf4;0x64a77f339685]),[[0xcea8ac88c6a92;0x98b0645747b03;0x61fe0558f0c6d;0x487c90b1d37e7;0x5f6ecdff0c13];[0x199fe25be011c;0x1d6fb0668e6ac;0xdb53a59669493;0x25a4eec3483d7;0x18183a8983aa];[0x1;0x12f5718154577;0xf8ab37e4deead;0xcb98910b46379;0xc1cbd8623c4d1;0x2eb9588c3947];[0x0;0x804ab3b5e3b5c;0xd606e61633167;0xb80afeefc2da2;0xdcdbb611842ac;0x3b3c8068ca1];[0x1;0x5d94d5217041c;0xf746dcd425d91;0xeaf6770be12bd;0x1bd10401719fa;0xc8995fc02d65];[0x0;0xc8c316e6143a8;0x3dba4e12ddb7a;0x7f45031023a89;0x8f86c642f6cd4;0xa766f0f786a00]]);
 ((V [0x838b873c58f03;0x1b08a89d71f08;0xbb379601d219f;0xe703c7fae9b44;0x5c9f79b29ee9] [0xd4981cc8e8d4f;0x801274172c972;0x2a24d6dd28050;0xfccbf9d0bd113;0x3ab33fbf2ef8]),[[0xe7699aaee2202;0x48cb33598db76;0x6ce9e7274f2ba;0xbcd38a609fe81;0x59ddfd11274e];[0xdbe7bbedb27a5;0xc6fb3c230117d;0x268e9bc66ef66;0x8068e4a3549b5;0x76ef281cba9f];[0x1;0xa2daadb1a287c;0xbd9e412223401;0x473ec198b95cf;0xf2ebf639dd15e;0x91ec37cf5039];[0x1;0xfb9698859d6f4;0x5980f227df41f;0xa76c44ee10f3f;0x5dbe443c7d532;0x23c44e3644720];[0x1;0x583b87924195c;0x6833e181c4ae3;0xe65c5e7baf7e6;0x2c836b469fc7a;0x22c17a1b46a50];[0x0;0xdc739f0fd7758;0xd097c933cbe61;0x2be7ceefcf8f3;0x25f355e3897fe;0xa620b20b01d41]]);
 ((V [0x713d37f90ca98;0xa7bf506c71897;0x269eb16a3b860;0xef065473252f3;0x177dce534ff] [0x34645a96fbde4;0x1ae6e2dc93561;0x636ba060ff33a;0x7fa473a15ee18;0x1967e619445e]),[[0xbf1b28544bf80;0x15bee4b4ad68b;0x8969288a14208;0xd87b4d2614e92;0x31522c6648f];[0x6cf0daba53574;0x421e4d53983ff;0x90a51ca5a1d4d;0x15c4a773453a0;0x248f51bee2ed];[0x1;0xf2b1acf54d10f;0x9fd3fa5586875;0x53c924cf7ee1e;0x74a4f97040cbb;0x6189ddc35f2];[0x1;0xc19c7aeffa700;0xd2b44e0cd3246;0x66f9fbf4fe65a;0xa1f69a7d12a5b;0xd88820c63ff8];[0x1;0xdcc93b0d5c000;0x59f4bb605e44a;0x6204f97ad4064;0x23d721b6355b1;0x1755a9f762665];[0x1;0xba13a2ba8e200;0xc682ece5bec6d;0xb57cafbb62e5;0xb3fafd0f13fd1;0x404ad52d976a]]);
 ((V [0x5472d1f28e555;0x71def11682057;0xb92405117615a;0x2216578731deb;0x37d34e6e3715] [0x8ae1e9470932e;0x4c063ee2abaa1;0x2168b154d0eed;0xe59a2e1b83705;0x445923d44a92]),[[0xb037ee0d8915d;0x56b0352957ab0;0xef61c13407432;0x629a96e4bc8ae;0x127106e4cf5e];[0xc2f44e64c7cac;0x27cea7a1d55d5;0x3e59c65df3ca7;0x5cd3098f19e13;0x4f252d7b5e9e];[0x1;0x47e9219edcbc0;0x13859822788dc;0xb3cdd552854d0;0xad6a0aac6a314;0x9e460b44f104];[0x1;0x7c968df206218;0x95d05bc1380db;0x3bef7304dc3e;0x45ce095e2d915;0x1d38cf9fe45d7];[0x1;0x98a47fc7a494f;0x6b352dfe2363c;0x8ad71ab1030ce;0x456f8406e6322;0x72dde2b2bb7a];[0x0;0xc5e6f7caa736c;0x51cf876e2fa5;0x3ea639271c14b;0x7ac38c47b08a9;0x19d3af404a9c4]])]
 [[0xa025dd5a73716;0xd877f7eb8c34d;0xb537634b4d996;0x91fe0b7689bf;0x7f63c0faa4b5];[0xf577d4a410369;0x378c885c2e29e;0x9360ae6b4a55f;0x145e866535c0e;0x24be04f9e9ae];[0x1;0xe027bfea56d5f;0xd1351f41ac7ff;0xe220b5120ff95;0xb3bcf257ad125;0x312315b85899];[0x1;0xc3df0434727d8;0xbcdc2e2b72506;0xaa8069a25fa8;0x8ba2213856e8;0x5468b2c7b21f];[0x1;0xa94e99ffcf07c;0x668498f4cdad1;0xcd894a697e022;0x69e056675c910;0x11dda229f3113];[0x0;0x822e306a4084a;0x610b715e6f9ab;0x7e11103338543;0xa287e359fcfa;0xf8c916933d746]].
Definition wit_B_64_2 : colwit ipt wit := mk_colwit (V [0x3c21b27be6877;0x18fc98c4ff51e;0x23966e3a97cdc;0x6209043d227ad;0x112055e988b7] [0x53780925be508;0xb8329d70ac2a6;0x733194e55657e;0x3910e58653997;0x374f25625c26])
 [[0xbe0e80f79a75a;0x86ce726c03aa;0x6468cccfeea8a;0x659bf2ff96241;0x349ef2a2b811];[0xf944120d8c4dc;0x2eee4ab904f0f;0x9aa438bb26862;0x178707c06bbd7;0x2a83f5bdbf8f];[0x1;0xbe667821701c7;0xc3ecee4682382;0x353ecc3b0c161;0x4d03015b33ea3;0xf047d9de986];[0x1;0x847519c5dd4e0;0x608a6ceb69afe;0x44c69d766f870;0x783e71a64e3;0xeb6299614308];[0x1;0x7fc2a586a54bc;0x8f919be2c031e;0xd6e9e1c52531;0xa0e3111e70e07;0x187491478c2b7];[0x0;0x6c53ef0ac8da;0x1eeaf8ab773c7;0xc2437bdbe120e;0x5596853367eba;0x649cf1cce59b1]]
 [[[0x3cd2421f1f32e;0x44ee1ce5ae65f;0xa4ddab8cd9f94;0x1a1b9764a9b40;0x732c1bc779e8];[0x1;0xa83f8029eddd2;0xd083aab6902ae;0x5c0c40e71b64d;0x8d2b984555a69;0x2abc350523737;0x1];[0x1;0x16a9493333b1c;0x8fa4c415a9615;0x6f0ba6dd1488f;0xc73ad4834f61c;0xc0da7e5cbe0a];[0x0;0x71d58eccceb44;0x8e9543edc8fa2;0x66e1d7bb836fc;0xc81e99acc5540;0xe5f964335a249]];
 [[0x1d05df4809087;0x4f096b29bc502;0xc5a4f7a829f30;0x708d9e5acc958;0x314174f2f04e];[0x1;0x50eae4d1a49e;0x908e47ba14fd0;0xb51cbc34ed4dc;0xc1aa392887e4f;0xa9f12bc0a2151;0x1];[0x1;0xc0383ff0849a7;0xf33904a297a69;0x3cee62b074a2e;0x389c546dced35;0x815d3b1137c5];[0x0;0x325d0c195a00f;0x1c38b2807b6b4;0x2141762fe7572;0xe85a88092e7a3;0x586ce56a9997e]];
 [[0xd0b45437af36b;0x4d74b22c36ab2;0xa6307a7d4ea18;0xa74802679f484;0x7c48cfb68d65];[0x1;0x1ddd2fac1901e;0xbae540d86ca6b;0x20b5380ec3deb;0x25c74229e79eb;0x111653c59b3cf;0x1];[0x1;0x26ed070a578df;0x19b11ec5c6d6c;0xcc3d734d976fd;0xddec789476708;0x750e78893ae1];[0x0;0x9066d084cf6b9;0xa5d4d8fd5e953;0x7accd9ac332e6;0x82af0e82f80b9;0xe987fbcb309c8]];
 [[0xa0e72ff4c381a;0x71ce5542c321c;0xe654b8430ce9c;0x30f0a1787e254;0x43bcbb42ce18];[0x1;0x46658ab20d2a0;0xa35bd3b60e365;0xa009e7cb96a3c;0x771813343f313;0x7fe4bd174c55f;0x1];[0x1;0x68ac6cc3b65bc;0xa27fd19bcea17;0x791ceec03adb9;0x346f60abbe6a3;0x12e755c56072c];[0x0;0xcb8b8583614a4;0x5acbc377495c4;0xb361fe69f6587;0xa095408add1ff;0x7960d4c6b14d8]];
 [[0x4f3559d736c1;0x33eaa81f4a3aa;0xa07fc2e46abf4;0x3f213a86fa55f;0x31e580a932b3];[0x1;0xd6ac52d9400d7;0xaefaddd388272;0x2008a98cf751b;0xa2161b532c423;0xac124356f7a26;0x1];[0x1;0x4f9f4d0839ed7;0x439ab5641546a;0x68d06ee1e66ea;0x8fa11200e3ad5;0xe5cb1870d391];[0x0;0xa97655e71b113;0x1c02b3679730;0xa7c92358c64cf;0xbb708a1f84704;0x54c3be04ccfef]];
 [[0xc0c28961030ed;0x8799941d900e0;0x4282ac3e3701f;0xaa9086b554cd5;0x7de3950e5cd];[0x1;0x90cb4e85d5801;0x575bca7922c90;0x4d876a1cc810d;0x8835dec7882c8;0xf90507e404c30;0x1];[0x1;0xcb5951f0be8af;0x1a605f678ef69;0x4788a5993fed;0xded4f840d77d0;0x7685df0c4f48];[0x1;0x7b0b69239474f;0xbdc15e5630af2;0x877096abfac84;0xec80ceccd3bf1;0x24fe5d261ae2]];
 [[0xe2023e49dac13;0xa8ac580eccd2e;0xafb773361093c;0x119c39ae7d336;0x46ab8e39ebff];[0x1;0x3d1d45082df23;0x565bae5251926;0x790624773d198;0xa2be329a5eabc;0x7fd8acb7b3f3f;0x1];[0x1;0x88db0b6dceaaf;0xa871aa07b193a;0x4396ad1cffa1;0x39075c2ceefc8;0x692ae8cfbf3d];[0x0;0x4ae767fd9c8f;0x877db4e79850f;0xa48a4cbf81d21;0x7ee9b4362c7df;0x7b99373f10869]];
 [[0xb1253cf3e5d91;0x3b23de509f34c;0xb1ad333f3ee89;0x2211748a300e;0x1cdd7eb5488e];[0x1;0x6da3b489d410d;0xf88e870015d0;0x65a5b390245bb;0x8485808efa67a;0xcc1714444b512;0x1];[0x1;0x405a33dfff737;0x51c7ebd95c820;0x9a030a55886db;0x7223cc78dd6e5;0xfdd54929bed6];[0x0;0xba20c8a4854d5;0xecfc7c906231b;0x465ff7e75d289;0x21b240a24129e;0x22f857497fbb4]];
 [[0x6846d403e7de;0x613f67cf74660;0xcb87fead3dcf;0x68227d47cda96;0x4fb5acb53f09];[0x1;0xb8d227a90332e;0x77e7a7f71afd6;0x1e282c744055d;0x40e9d495c54dc;0x6bb6868fed5c7;0x1];[0x1;0xc8721ef6a08dc;0xa53792ba3c069;0x3a023e411f997;0x1d4b4fa49660;0xba6bdf3e2be7];[0x0;0x89f3a98508b9c;0xa0255cf225a1b;0x34d2a8a936c18;0x9a8c1d12d69c6;0x99c3a9768cf87]];
 [[0xb3abb7fe1b932;0x6cc67347ea833;0xd339158470816;0x824b433e20179;0x579bb96924f3];[0x1;0xff06bdb461b50;0xa283a5b7bf0c9;0x3827a000bc44d;0x463a263f484f7;0x600387f38e67a;0x1];[0x1;0x1bb7fbc794d9c;0x629765eae79c1;0x537af00785a59;0xf0d50a863f1c8;0x92c2a291e2f4];[0x0;0x1c354b7431c24;0xdbd1ad15591d2;0x34c7b3fba5219;0x8ce499b4a676e;0xaed81bccea9ca]];
 [[0xa6f59da847280;0x3cd5a35410cc9;0x461e87ca52bc6;0x2e5ec58085008;0x39756e906316];[0x1;0xd0075b8f7180;0xa58bb55b1191;0xe568ceb60f561;0x6b5c870eab8f1;0x9f08b36818251;0x1];[0x1;0x37d76a16fc000;0x9097e6a36a612;0x1c5a6d943aba;0xc25cf6e5b7437;0xb90789fc32d7];[0x0;0x2eda1708db680;0x71e2f3ae73a1a;0x5367642ee4780;0xcc7a97e7c244f;0x694f05006606f]];
 [[0xcc09d5ce6492d;0x27b068bb35648;0x1f1eaa1fae546;0x9d97b0c9b642c;0x6bdf3f48c65d];[0x1;0x72178014363b3;0xc112c0f887807;0x84503a9d40fed;0x6b0323fb3f678;0x2e5fdaec02adf;0x1];[0x1;0xece7143fae2f;0xd5c16a928958b;0xeb694f8a81971;0x1f112d5c93e21;0xb9375781f163];[0x0;0xb78c9096bd8c2;0xe741979183ed1;0x3b2a8e2d615b4;0x2a084b7892258;0xc7318f30430e1]];
 [[0xb47cd5efd7c89;0x28c2d3b1cff3e;0x38dd155631cda;0x9f45dcaa446b1;0x4d80216942ef];[0x1;0x476e88bf55a26;0x11cdc203497e0;0xaa1e2e71e23cd;0x7fea2af9b38d4;0x6faf36c4fba01;0x1];[0x1;0x13981295b6a87;0x9eb971509184c;0xa0069f1e71415;0x1c279b791d8c4;0xa628ce93c07a];[0x0;0x95a2b4258a2ae;0x46bef510aacc8;0xf639e84982b52;0xa446ac8e7c5f9;0x97fd5a422e24d]];
 [[0x640cab7be25cc;0x47f5572e97fd4;0x2124efb2b6443;0xb2b3e500c9812;0x63260b4a40d4];[0x1;0xd33cfb15465ec;0xb2bbce4749834;0x2294d5afec898;0xf8c2474c45eca;0x4920a1ab1f3b7;0x1];[0x1;0xf2d8f57e406f0;0x5817395013dd6;0xfa15e438ed693;0x574aba0ba6485;0x61cbeaf93264];[0x0;0xa460d12e29200;0xb7d080d6d4b40;0x91e254eec7678;0xcf994ecb26741;0xc3633a0a57950]];
 [[0x46921eae4ca8c;0xd0ea97f04c42d;0xaba4fa92c290d;0x1249e8b2de0e5;0x2faa0aecbd53];[0x1;0xcaa5901ea36b8;0x63de8f3777833;0xddb65522a0cab;0x68ecd65600f0b;0xb00cb05afa3be;0x1];[0x1;0xe63b1076f14f0;0x315197e9e22db;0x49f9457ac55a0;0x7540312c2d6e6;0x187470fbc3961];[0x0;0x31e7e6c8f58c8;0xb78bad30fef1e;0x2e2bf760bb6ad;0x1e4fdbf67bcf7;0x4dfcf60cde5e0]]]
 (V [0x3ebd1cb72230a;0x3ee56bd715b06;0x9087f2b1e073f;0x42e7ccc9ee8;0x9c33e1408c7] [0x39d925d46d17c;0xc7a9241da7320;0x1f64a11b248bd;0x446218988f56a;0x203f63423d0d]) [[0xf34f89050ca7;0xa11e272a11183;0x8517d5d2b416b;0x2057bd72a6171;0x3b7b5c5fecf8];[0x1;0x82af758de24f3;0x39e4352cf82b6;0x83323fc72766f;0x3c51c2819ae21;0x8bef237d0208b;0x1];[0x1;0xdfce255b615e7;0x3a56d94df5943;0x9612bb2119c3e;0xe78d0ff323511;0x1aeda1dd8408e];[0x0;0x7cde7575e4234;0xcc6e76df7f3b;0xf2c4f919af583;0x6f77d81699de0;0x6cbc564fe7a92]]
 [((V [0xe8567b950b22c;0xfd107f17c0728;0x2e1a68ca484cc;0xb8d3fc07adea7;0x6f7b9493fc46] [0xb21c3e28ecee4;0xcac1cd4e7ed49;0xc3ec726bac29;0x14862fce2b65b;0x2a8a6bb11fd8]),[[0xe7268abbcc4de;0x1c61767694ec5;0xa549eeb9c0f11;0xfbc851a34f9d1;0x55710ea0f93c];[0xb487e2785d7ee;0x6c5d024154751;0xc32141b5904f1;0xa9c0fc6dd2da8;0x38d72e693a15];[0x1;0x867d890b3e5fc;0x82ca7fde0d0e0;0x9b4c42bbace08;0x2d803d5d9a764;0x70efbe485fc9];[0x1;0xeec6b891fda70;0x4c36840cb91d3;0x9c925e78dcf4a;0x94db107326a9a;0x129fdef5928b4];[0x1;0x810e04835dcdc;0x80c2feb9ebacf;0x7283e423b31d9;0x63aaa84cd22ca;0xccfb962e7ac0];[0x0;0xbc3411856ebc2;0x3fc53626d4436;0xef4c0d6a0710;0xce5a37b72bc41;0xa2a19030bfc76]]);
 ((V [0xfea885863b4e9;0x650fbe2012564;0x26a033f179572;0xfd560b0033663;0x245bf795faa3] [0x952682981a428;0x2c191fdf2379c;0x84026d346510f;0x2119a131b4345;0x517342f6402e]),[[0x5b31ee290b509;0x12b52ba2d3bea;0x404e2d1fc2954;0x8ebd8962029fe;0x4bd6a546cab1];[0x591851914fc23;0x9923eb23112d8;0x909801bd4cb98;0x4c4f14f1b1452;0x4466edeb5c32];[0x1;0x8d577703561f0;0xdfe71f53c7e53;0xd5080abac2d17;0x35a85a4c5596e;0x27b50ed5d5fa];[0x1;0xf15375d7eaeb8;0x3dede9a33524;0x1d0ad15961e02;0xbddab64dc10a7;0x16800b09c93d4];[0x1;0x3a2bde99c4987;0x146d5a8fc4410;0xb9072fc98e468;0x5f47e82ebd577;0x1d9b74fdb76bc];[0x0;0x5d0c803f5c53c;0x110c5a3a3e645;0x615b343b438c0;0x735f4166dad57;0x8fb3270a8fb16]]);
 ((V [0xe3650af60bf7;0x6b9f434e8f68;0x9ff4bc21163fa;0x62cc72988d7af;0x143d93707dab] [0xa26616a689a08;0x7cf677ce799c5;0xf50a58fbf3e89;0xeb35078fb4328;0x2c65aeb3cc41]),[[0x8f4aeea85ee5d;0xd8008b625a160;0x363a65b07032;0xf5dc5a85b8553;0xd213952e2ff];[0xaf95a94bf1919;0x67b4d57e23ec4;0xe70ee1014c807;0xa6ef6a0938058;0x596c6c982cdb];[0x1;0xc8876d98821c7;0xed0a49b40d2c2;0xdd4c73d9a1cb;0x2b25e13f6860e;0xa884dbd81495];[0x1;0x964032c249870;0x7ed4cb08f4b5f;0x7fd426a6063ac;0x91d4da21205a2;0x207d4d9945ced];[0x1;0x2de8c2a43e74f;0x6ea1e3ff55b4c;0xe8ed301145aa7;0xa92d27b2f32db;0xb8923cf46761];[0x0;0x9f5804ccfcd77;0xbe5da8370ab3c;0x3d7392e1dd6f1;0xce928d6a08ba2;0xb73dc594c320]]);
 ((V [0x72a26d15fd0ce;0xfa668a3709167;0x36764b35f3839;0x1455e26e5d14e;0x3fa6f768eac8] [0x49701028d17b8;0x3577da2e753c6;0x8bc14b94415a8;0x9bb711ed406b0;0x3d05c71d71f5]),[[0x24cb6810bbee5;0x8122d55f0010b;0x4c2f71b250f12;0x14a21c3b2e26e;0x34850d8892ee];[0xe29f0efb9562c;0xf04a54a9fd08;0xecadeb144923a;0x97ee23a1b78e1;0x9978e020e3e];[0x1;0xbbf18d22cab87;0x6ca385c631d8b;0xffb2700539c00;0x16202a5a6a0e6;0xffbc051c42b];[0x1;0xb99a1de6d5930;0x36a2869c40423;0xab5342a4960cc;0xa4f17371573ad;0x151e6967cc60];[0x1;0x63b84200289bf;0x440fa798fc097;0xa64bde3640a0a;0x9cc5b8a68f7b9;0xbab79746b39c];[0x0;0xfd542d47609ba;0x1d57ac89efd8;0x5b001fd84a06c;0x2b1798f14e7a9;0x5e07fe242a1d6]])]
 [[0x1b1a7976aa143;0x641a761160f50;0x68fa13acf385b;0xfb5e7a9ae823f;0x3e0149d60c6f];[0xcb1a3e028a296;0x8d832a36ba05d;0x9bcd1408f49fd;0xf0c861019fbad;0x67ed363140bc];[0x1;0x4e4ff49fb759c;0x4790b48b4e2fa;0xf5bfa04c200d7;0xb67c161a09083;0xb033370ba404];[0x1;0x647e5e9f8b130;0xaa68b70286c72;0x911a0de38f6ab;0xb289b037cb845;0x2347071c53346];[0x1;0x9e82f76c0f78f;0x85bc14324d910;0x7b0c45ead6350;0x75fdbaadcdb56;0x15aea6d23fbb2];[0x0;0x63e2ca7ad51e6;0x2837b67f8a7c9;0xc0cf4428d1bd;0x2ebe90589657f;0x7532105750562]].
Definition wit_B_64_3 : colwit ipt wit := mk_colwit (V [0x256c75872caa7;0xadd07f3c70f7c;0xf42c961f7395c;0xaf365815e8b0d;0x75014728b63d] [0x27266517fd61;0xdb05aff05716a;0x2afe9947eaba4;0xe8a54bbdfad25;0x1baa20549b05])
 [[0xf9e320c6ad6b6;0x8bae6f62525de;0x9185aaf849820;0x49bc72be3d74e;0x6436bf282476];[0x3daf31bdce9f1;0x9e8ac7d90ee82;0xaafcbc28f49d4;0xe9c35d0d72dda;0x2a9ad3d96bd7];[0x1;0x2c4cf53186c9f;0xcd3b263a08c3;0x6ffc0eef38b29;0x1441fc3b3cc75;0x37f9bff869ea];[0x1;0xdab1f0e07b46c;0x6511a24405bfb;0xdec537924b801;0x29e65ede5ada5;0xd854c4621faf];[0x1;0xa620e764f50fc;0xa0fc63ca0f4e0;0xc5ec6ae03815f;0xaa161ca648eec;0x1903c8a4e4946];[0x0;0x9600ab9148a8a;0xd73295869bab7;0x1f4055ab6cc9;0xa161a87f31f96;0xc55d23c676c15]]
 [[[0xdd47542d7f4dd;0xe7a8ab3b78ba7;0x91804e4c6554b;0x5f7da93c93913;0x66615352fb8f];[0x1;0x5b587de239289;0x5256667cef2c8;0xdaac3e68fa447;0x1fad3e2b3d4b7;0x3a5ee73b7629d;0x1];[0x1;0x6949b12b8864f;0x23b7b0429ac3e;0x825bf521ee65a;0xd4baeca4077b8;0x16f77b78b2942];[0x0;0xc1a7e2f04b1df;0xbc9f48cfff5df;0x990c31885c5db;0xe7a72aee06004;0xc9b5feb0204d7]];
 [[0x8d15d1cd16a63;0xba8de5d37d205;0x3f7e3b054c411;0x71e0bbcc332d;0x78c8f89c5b5b];[0x1;0x282e7c003d099;0xa47fd3d746413;0x46e66e3ee8660;0x56737e4406f34;0xf22e93138715;0x1];[0x1;0xfa9ff7bb5decf;0x77346baeffbf8;0x6d8b071b11e89;0x15cf4a42171ae;0x1cf1b80f3477f];[0x0;0xf6eec5c4418b8;0x3ea94195dda5a;0x7a1e1804f2a6f;0x6c9fc80c4fd50;0xec5cb23a8cd02]];
 [[0x66947368fdf4f;0xc7fc3c1c40459;0x541f84431efc8;0xaf7a16081bb8;0x44701ef59a05];[0x1;0x2888117a9f1b4;0xc4601aa48f63b;0xc90b0c9347b26;0xd9adb8ee4f4fb;0x857e02698e317;0x1];[0x1;0xb63f6e164cef7;0x41533fee501d;0x916f7f2409a78;0x572d4b6d4e68f;0x2924ef08c20a5];[0x0;0xa43350de0f82;0x38bd850728c57;0x69380e638034d;0x60c3f940122a8;0x7f38a2987eb87]];
 [[0x14f3133e9fd0f;0x9c821e5837f3b;0x2377e5feb3955;0x6b00fc82fc6a2;0x3fb914d0161f];[0x1;0xae2340e4359a1;0x2d1bf0a918e4c;0x4187c1fdbfd1f;0x995c154cf0a6e;0x82295e6ccd0a6;0x1];[0x1;0x89ddfd922e77;0xde556f1f290bb;0x79b55f4154775;0xbf2ba88c0c5ba;0x2139dd55c4216];[0x0;0xbbe81c228a745;0x190b4325e9380;0xa52b0e111c162;0x5dc2f70cf1455;0x75453a619045a]];
 [[0xe3c024826589f;0x12920b2e2412e;0x83817665c159c;0xd3fd71eba08d3;0x54c9cfb3b96c];[0x1;0xc73c80a9c1b1b;0x30bcf7b10a12c;0x55b80042a2f1c;0x456bda243599f;0x601aa3c6fed42;0x1];[0x1;0xec02365b23797;0x92d12a68918e9;0xa25a1d7da801f;0x5e8bfaf351535;0x21b5f051978be];[0x0;0x7cc4c90f42ce6;0x292cc2a90a226;0x61c105062fd42;0xb91e8fd2b5eec;0xa6564499bc13c]];
 [[0xef21c02582c52;0xea2056bcc21e6;0xea619416ec68;0x8e670bc2c7d96;0x20523f3165a6];[0x1;0xec04345401958;0x447d7b9a9225a;0xc13e100a6efac;0xb68637017e344;0xccfdf61afcb35;0x1];[0x1;0xf835b20cd1d1c;0x5f56da5737cf0;0xabc967f14d664;0x5e7f3a1816b45;0x2bc7fe8affddc];[0x0;0xabca23ec83406;0x4abcea619ca29;0xa024d36fdd6cb;0x774a5278da5d5;0x39d3a8a0a7260]];
 [[0x7fa16f2fe6908;0x9751bd82a3f27;0x4b4d280989472;0x644e98889f788;0x4f646524dc7b];[0x1;0xe0d2fed02b710;0xadce7ee06a267;0x2a3b47d677568;0x45e4c1d8a6236;0x6a9d530d40e04;0x1];[0x1;0xaf2c546c005c0;0x8bd156ccd4be2;0xf668470cba638;0x5e9ebddb2a1f;0x27ce6b959ae81];[0x0;0xb56db779a9510;0xcaf774b0893f9;0xf818d435d9bbd;0xe825595a3c54f;0x9547a21b9629f]];
 [[0x95b67582a1ba;0x6e386f75ba039;0x15355b176cc86;0x3092411435c4d;0x57fc58cea04d];[0x1;0xc84f8a782df7a;0x93842eed23225;0x3368c37307bf3;0xf579aeb6ac9a5;0x5410e48430014;0x1];[0x1;0xd629434a7b93c;0xf354ca89274db;0xc163ed59013f3;0x24246a8667a80;0x1ad71149a6686];[0x0;0xb49374ecec9d0;0x91711180f596b;0x24554e8ba8e92;0x24fd5ac10b680;0xa015e293dff65]];
 [[0x61d4d8d753d4d;0x13a01d22d8034;0x10a658a316068;0x1a3e63ccb429e;0x182d44c2c8b9];[0x1;0x4dbb574c2c4b2;0x72b7937d73b5f;0xd6242ac1ff3ee;0xfef36fa2e57c9;0xd0b10a01d49eb;0x1];[0x1;0x822df91fc94ef;0xfe41e5c0c2b75;0x4cf922a591be6;0x6b82da17802db;0x17f60487466ed];[0x0;0x6accd45118c06;0xe94978fcbf9b0;0xe463a9317ecc2;0xba6d361fab58c;0x16abfb873ca86]];
 [[0x5c6563a65f772;0xbe876b14097b4;0x740730e5dc6ca;0xec80d1fe4b6dc;0x36e3bf5c10bf];[0x1;0x349edf15eecaa;0xbd5f70426886f;0x7b8f848a18b9c;0x2d325cee16d25;0x95ba4b0e27cf8;0x1];[0x1;0x7fd10f602c49c;0x8ffa161daca3d;0xbaed8594818fe;0x3ecef689c9a81;0x1e3238c1cdcca];[0x0;0x75251c344037c;0xe75dfeebd8275;0xd86f6e91eb5c7;0xdd4279eff7668;0x644b60c2aba38]];
 [[0x2b57479cb410e;0xedc2b17480e8b;0xe15de3555913f;0x1dde960e3f6fd;0x2398fc9624ac];[0x1;0x562c515b22920;0x50582d8476c5b;0xb2461ccb0bb2c;0xbbd2168e67246;0xc7e0f872186e7;0x1];[0x1;0x505c0d939a69c;0xe94a9b831a222;0x3c934da640f83;0x5e96869bca830;0x18455034d3a91];[0x0;0xffbc991ef07f8;0x18d65a3980517;0x963307ab4c213;0x895f06dcc5927;0x3f90bb2ca414a]];
 [[0x89c85d06cd7fb;0x84cb980795051;0x568065eb3f527;0xb7448b3c0c11d;0x5120124dec02];[0x1;0x54409ffdeb45f;0x735dc7ad09d70;0xb360a5c4a36d3;0x508c6c8f884a1;0x5e0f6ad6a8c4b;0x1];[0x1;0xd836c5979b07f;0xe6056474625a3;0xd768504a1123c;0x61d604bdfaf04;0xd7848c7e2281];[0x0;0x5cf5dbed68357;0x8d2d856cf4330;0x15f89a70c2690;0x898410e2ab174;0x90434351764d9]];
 [[0x61cb8646b9aa6;0x143cbde1d029b;0xa9aeb58480b67;0x8ff32c4b2c528;0x5551f35bad34];[0x1;0x41cfb8545e9f6;0xb7a541a7fc3ce;0x219212cc469e0;0x7f23e82d10e54;0x51ec67a023c58;0x1];[0x1;0x74c5fd660fcbc;0x1882c932a0bd2;0x8210d4908fe2b;0xa1c84f34449d7;0x1969aebcfa680];[0x0;0x9a05a0cc19ca8;0x7caa0e306a6cd;0xfce9d412173d8;0xc484a57ae1a08;0x97f99afb38916]];
 [[0x6b63d88b5c191;0x20ad4a14f3713;0x76412ed4bd1c6;0x79c886f1bd4f4;0xb5bc31c1ee7];[0x1;0xe9da45062efde;0x272ba1425c7fc;0xabc3595dd784f;0x83841d7a996da;0xf4f2e5ffd9510;0x1];[0x1;0x5cc3dc5c96f37;0x55471513253a7;0x9cf5df03b182e;0xa3e5dddcec236;0x255e731b50fce];[0x0;0xe6bd9910b7de1;0x83f45522344d0;0x3e10d4bec27b6;0x779b7d20d1ebb;0xa228598831ec]];
 [[0x3b7d74b530a14;0x23785bb14e40b;0xd29e32f5c4020;0x9cf0608c4e6a7;0x6937a694c13b];[0x1;0x5cba70a2f1818;0x17209274c3f83;0x59281a2d8d7ac;0x756102d930265;0x321520d38e37e;0x1];[0x1;0x6dea35447f7f0;0xdc02780f8b9ef;0x8d8ce5b2ea675;0xb3eaf818b11e3;0x15ca1c0af0a33];[0x0;0x2e3583e57916c;0xdd0f8dda66891;0x35aa1fc5d453b;0x3982ef5ca98f7;0xc59aa93e31ae4]]]
 (V [0x6c62379b0d5cd;0x66131967f469;0xb4b70672f5ee4;0x3114e673799e3;0xc8631b77e88] [0x97df0462c6af8;0x11efef814ba55;0x9e55f7fd1e896;0x784b26d697d71;0x2d75b26dc9fd]) [[0x1d6e06b485df8;0xcc93a1d82c993;0xcb7d411d63713;0xfa52aba95ba2;0x30af6052d557];[0x1;0x86f8ffefda570;0x32812f6258df2;0x8ffc94b8a76e3;0xefc8e6d385933;0x9dd36dc633755;0x1];[0x1;0x37c7eed7af5c0;0x567366a58f2bf;0xfe0498f8f7370;0x565c18bc29556;0xabb3400ca550];[0x0;0xf66e45a7c2220;0x53edbf1520046;0xc67b68d9174d9;0x3c13f9ce3411e;0x4efd1853be94a]]
 [((V [0xec7df3034d630;0x56493e4c76fb4;0x8c682b9d69a41;0x15a225012234b;0x6a926e0a67ee] [0x48a386bef128;0xb7a5f8198128;0x3d1a1de0d990e;0x6ce97ccea0470;0x17176f585fb7]),[[0x909c63b06c152;0xd20386ca9713c;0xbd1570bfd68df;0xe1b6f142c1a45;0x135256959c5];[0x1a71e22aca49f;0xf0d22324b23b8;0x575b38218e962;0x16f6960751c5f;0x1073f96f0dea];[0x1;0x4bb0087dc8fef;0x72ffa76a67234;0xc45257a320c53;0x33a5ed01713ab;0x1fae3cdb889a];[0x1;0xe938444536620;0x765a56d79988e;0x6985310b616df;0xde5b2bbd5c297;0x61dc41c5f964];[0x1;0xbd813fe4c891c;0xa3a5004ae1256;0xb111d31501316;0x41962e70e1284;0x1073ab84c1e68];[0x1;0xaeef1c1259894;0x4fd8b355648d3;0xf7988dfe83b16;0x7be73ee67606f;0x622395fe527e]]);
 ((V [0xea70bde2d903;0x21aba2d5dd1fc;0x6957109465348;0x59a2df92cc37a;0x666d6ff73c17] [0x53c1cdafe1344;0xb68bdd31a2fba;0xad9d0ec1381ab;0xfd1fd653e3b34;0x46ef9b4f1997]),[[0x2a25fce3874fc;0x7900e8375e1c5;0x87e5041ae5a9d;0x42c132a8f3c1b;0x43af62a3452d];[0x55c09ec968cd5;0x5243c1c9bc8fd;0xa22f422cb95e;0x46a08aae556ad;0x3888feb37df7];[0x1;0x2c4bb6d7ccf00;0x2eca56dd2d53c;0x1ceaa862424b4;0x3ed1676968ff2;0x1856cfa25975];[0x1;0x264e3131d4b40;0x9df591b3939a8;0x6ffaf8cde9580;0x67f0ebf245e3b;0x13aca27f92ecd];[0x1;0x5b437e7286d70;0x7d85d33bc4f7a;0x4989e3d104d5f;0xadf9e6fa067fc;0x2535a0c852907];[0x0;0xb29c297eb56a8;0xfbde3df6d4f78;0x3126aedebdc51;0xbeecbf09fc251;0x7ffbeac7ffb3e]]);
 ((V [0x72aa2db405edd;0x3b543a1983887;0x89bd1d9ec6135;0x5d8eb86761b0;0x58177ed7aa4b] [0x654dfdb9ed6ff;0xd6cfe99042d95;0xb0cb309ca4186;0x67aaf90b4c693;0x728fa4b5ee6c]),[[0xd602183951aff;0x42ac983622375;0xc62996f94544d;0x694975018a5c6;0x6de9a5b439d9];[0x99c0153b13b82;0x40588f12cdca;0xd1f4890bf3026;0x9ec9426129366;0x467b465bde8c];[0x1;0x76d4c1e9db50f;0x57d3b8afc466e;0xe54bc66f37305;0x52fc141424bb;0x3affc4b4a251];[0x1;0x2bb4b41050fc8;0x633f5fb8ef3a2;0x95851d733442;0x9464688101f1e;0x12d1099a99550];[0x1;0x66336844b1e57;0x1946412fe6617;0xd8eb19f6cb72d;0xec819994f085b;0x1eb8324d737c6];[0x0;0x2d13af2791fc9;0x771a0c6e381f2;0x1945a6b3f4ab3;0x9360f199abf3a;0xcc46f36862ac5]]);
 ((V [0xb9ab2cd35742d;0x937b4c8838fe4;0xdaf4cd5b4dadc;0xa006a482d5da7;0x757d933eeb0c] [0xe014ce95d711a;0x5de4018e9eaec;0xdd0749e2d0f6b;0x46228fbd8ef67;0x400d67fe4ed]),[[0x3020c12d5325e;0xcfe553ab40109;0x7dad1bd9c63ac;0x8c501a8827e1a;0x5c4971c934e8];[0x5c1684fd2144d;0x574449550c308;0xd1139c5709150;0xfbfb5ef3f2e5f;0x2781f1e448fb];[0x1;0x6397d2aa6e24f;0x3f6158595b2dc;0x4591eed23d08;0x9a53b600372b6;0x1263910ff49d];[0x1;0x39e116994201c;0xde357c9386026;0x5654a99ae26cc;0xa12d80a1a0462;0x47d9b70e8700];[0x1;0xc719a701422dc;0x6dd7ae4feace2;0x359f6c6d745c6;0x36caeda8d4953;0x208cf64271490];[0x0;0x579bd0068b3be;0x77478c6981e15;0xc95807e7e9530;0x92a5fb2858d1d;0xae324777ffd62]])]
 [[0x8b76e39530893;0x4e093084cfc37;0x1897d60a7b142;0x1d8b2dd27d4d7;0x17bf92d9df23];[0xece7284c9b1d4;0xf2364e8b836f5;0xc75cf62ef96b;0x35b36b575b9d5;0x39dc17cae12a];[0x1;0x3dcba3da5e02f;0x5548a9cb16ad6;0x5bbe55582d2e7;0x9f63c18b939a7;0x7e023347c5b];[0x1;0x685b50c66efc4;0x8c46500eddb50;0x73b7c1058451;0x9f4d4740e2752;0x159ac45fba0e8];[0x1;0x622cc8e3f37af;0x5016ff6aba89f;0xcb2c5958638e4;0x2914e25444098;0x254fb9e348f46];[0x0;0x9ad0f996da376;0x359f072d454e9;0x8c63387ec707f;0x2acd24784ba47;0x2278594c7d7ff]].
Definition wit_B_64_4 : colwit ipt wit := mk_colwit (V [0xa77f3f073b06b;0xe3c57c85e124a;0xd65906f66ee57;0xce49639760124;0x42357aa293b8] [0x8c4b791367730;0xddb6fbd690635;0x87fff9261f7cc;0xcc2d8cf476605;0x6f133bd741be])
 [[0x86ebc10a46ace;0x20516cffa548b;0xcfb3301ddc765;0x8d67f550388dc;0x1684574419b5];[0xb231c3d314048;0xc7652c3c3d67a;0x7f6bd6a507f82;0xc6d3d7b12a6c4;0x6b6375c7e5cd];[0x1;0xacbaeea90b770;0x80d3acd162199;0x7f46f8e3552cc;0x42d3b49f83966;0xb50a6806159c];[0x1;0xa3b9b793e4fa0;0x51edcd9ee8b87;0x14bfac823c80d;0x62d714c29cf2f;0x25b350b14ae43];[0x1;0xf4e98c401dd9c;0x79f66c94b51c3;0xbbba41e149d57;0xcedea94680427;0x1874f7fe1ba90];[0x0;0x1df3b9a9725dc;0xc8dbdf662d307;0x5becd66d741cb;0x6749c45f3961e;0x11f0c8ea6d5cc]]
 [[[0x5fc85d5ba08d5;0x3ac6ca27c1a29;0xb2b193defb7fc;0xcbb2b8d08ad50;0x695f7024dcfb];[0x1;0x5819dfd1c0f20;0x44207409b092;0x21d5c004cd7b8;0xd7fb1352d8ef6;0x35eaaaf1b9e08;0x1];[0x1;0x76d2d6385225f;0xe5a232e79cf66;0x99beca587b8af;0x3c537647eb11d;0xfb0c3c450445];[0x0;0x7133240e1eca1;0x81b1698c202b1;0x4ca6352527706;0xf072189c06047;0xc5527b66de53e]];
 [[0x82123a17acc07;0xecd27f79b17;0xb89260d1982b4;0x15fef902361fb;0x15ff37cf2d25];[0x1;0xe0b5628c408fc;0x355c3d8e52067;0xf6993d6c938a0;0x8ad6a37120844;0xe9531a73302be;0x1];[0x1;0xc326250f9a0a7;0x34baa9cb5ab1c;0xc9c486eef6da6;0x7713315f20c56;0xf4dd0e69b6d4];[0x0;0x52601f3e9fa27;0xb4ac11dfcdc37;0xc41354ca65b20;0xdb38fccecf342;0x220c62867e5d2]];
 [[0x4e272fa33309e;0x1ef9e9df82738;0xaf22e31e4e1cf;0xfbab2f5787046;0x10d53fd59715];[0x1;0x7320164f8bfb8;0xd8d21badd0245;0x2ca860b03c6b7;0x57be92ef6cf86;0xf62ebab89e2bf;0x1];[0x1;0x7b2a93eb5c3dc;0x3e8f7567c2b12;0x97c13bdee148;0x64e71c3e84c36;0x161a361467695];[0x0;0x207a1ab36bf46;0x9ed26de5b33d1;0x623c62f94e0f6;0xcdf20818b2f2c;0x10a3e2ebfac36]];
 [[0x6300576cfcbe7;0xed46c08f5c8d6;0x5539371aa4283;0x62e07529fa92a;0x7121b00940bf];[0x1;0xcdcb53408f0a8;0x9a719a8d1685a;0xbc6c5f25c985f;0xb5646e1647658;0x2900ba47df543;0x1];[0x1;0x8863f0ddd6467;0x5eff1f85bc235;0x669ab6a8fdc0c;0xd0077b1a4d79d;0x11a6ec139635b];[0x0;0x2e5384cd2ab49;0x46dce40dc6750;0xd077f4399c51e;0x95dd658069820;0xde56a4b6972f3]];
 [[0xbc95a45c53e38;0x2fb1dc723021c;0x5810b59f41e6c;0x4df92dbb70fa1;0x7eab71f8616b];[0x1;0x52cd200994730;0x6ec5f7646064a;0x9767c936a6dc4;0x6e5cb23595a97;0x15756772203b9;0x1];[0x1;0x7044ba609c0;0x418262f971a6f;0x49a9db3fbd5c7;0x69242a1c75720;0x1218491873b5e];[0x0;0xb0d96ea814e08;0xbdf7d983a42b8;0x87bc3a6d88d52;0xcf5ac16eb1395;0xfc70d027ca319]];
 [[0x6dc3f6ebae077;0xd0584a33d159a;0xc08f32dbcade3;0x5ae8e3061389;0x2c8b604cd1a2];[0x1;0x6922195d4c18c;0xe159a96dfb1eb;0xbd3251f68eaad;0xd42d646507f61;0xbfc2512ad3c10;0x1];[0x1;0x4f9e06a6e8487;0x72ea8abf4303d;0x19a08a74dfecf;0xac9033aaea83;0x16133fd5e0fcf];[0x0;0x367c1bb8127f5;0xc5e4863055337;0xe8b13747163f;0xac156635250cb;0x5772c0c6d0522]];
 [[0x80a71aacabf27;0x27871ff331fb9;0x31a72937f167e;0xaf05f41f3aa18;0x63d1af46357];[0x1;0xa2ba9c7cc64e;0x255e2207c3b8b;0x1d6b5adcee821;0xfee68aa2bbbd0;0xd7bfe09efea8;0x2];[0x1;0xa1270a660fae7;0x9220f12279e67;0x1ffe9b05c0a82;0x3c09d13618007;0xecb9a80e9eee];[0x1;0xda351a87333ca;0xc06d5f3e7f324;0xdffaef24ee31d;0xc75b3c789e33b;0x3bcb1360aa3]];
 [[0x6ee73644c8aa0;0xbac0b19fa9042;0xb862eade93d7d;0xbdc60194baef1;0x2dabb585e6a9];[0x1;0x3095d5c0e07a0;0x52832eb6f5e53;0x1a0d895cf5142;0x7cc2c29bc866b;0xb57b0334c0a20;0x1];[0x1;0x8703f969d7c00;0xa46d81f1d0776;0xe517ffbf49c7e;0xfdc06b5ea2f64;0x1830e816cf4a9];[0x0;0x239c914333dc0;0x10e73fbe5c081;0xe62cb3d6dea1d;0xfbb9c74e728ce;0x4b5309c18f066]];
 [[0x251893887a63e;0x1ff44454c47f1;0x40748d1714849;0x765ff7d4a049f;0x5c63515b5cd1];[0x1;0xaab08a69b1c98;0xf0f9769af3dc0;0x4785c7fb67771;0xc703bed617e44;0x5893f607bc405;0x1];[0x1;0xdb87ec5aa525c;0x16fceb8310401;0x5109c6c17215;0x21ff11e070f7b;0x14ecfb6a947d4];[0x0;0xd7cd15b081a90;0x99479af7cfd7;0x6b1c7fd3587ef;0x265975fa625b0;0xb143818f1af1f]];
 [[0x58eb174999889;0x1917404d1ffc4;0x51a4d6faeaf02;0x613808b4b2090;0x7e599022d2e3];[0x1;0x1f201d8329e05;0x31c16b3e4149d;0x7aac7fba4838b;0x1e9e9f4956498;0xff653f56ce61;0x1];[0x1;0x766c27e62b287;0x6f4c31fe1959b;0xe02fe9dbe440e;0x5081b8e42471;0xf6302f7b2fa8];[0x0;0xeed6d9b33d26a;0x8d0015b1c40f2;0x254b45e50ed40;0xcc06ab97fb6e;0xf569d5c95666c]];
 [[0xcb00c33afd1b2;0x3a081266b2ea1;0x5b421fb604ace;0xe64a2509c6258;0x59594a7dc275];[0x1;0xc84a90cc4c108;0x293d3774bb973;0xa90f336056888;0x4c113d8db281d;0x611d3a5182b8f;0x1];[0x1;0x57dfb289eab9c;0xc8240c281719a;0x4d04537b32b51;0x7f1b6a3cb782e;0x1dd9b0f4b53f1];[0x0;0xb268cf16c5d88;0xa198ceaf89227;0x98fe3f3dc358b;0x634792df5d41c;0xa20aff685ea41]];
 [[0xe2928929e6839;0xe277d431c6bf9;0xb05b442d387ee;0xb21b34fc23368;0x333112856532];[0x1;0x45f1b670ec919;0xc3c42f1b22f6;0xa3cd84542c8c7;0x5bc0ee2856d54;0xa68e492ba90d3;0x1];[0x1;0x500e1b32c7827;0x12e62af568cfc;0x6764c0e931d60;0x5cc869fbab28d;0x1f53b09df2898];[0x0;0x5b9aa2246ff3d;0x9d1ad30ede709;0xa6dd98092f583;0x4894bb809dcad;0x5ac29c039add2]];
 [[0xd121f598f83f0;0x926c2173723ac;0xc1868228747a6;0xf8ea739780504;0x2d3c164dd017];[0x1;0xea966ed10e630;0xa2861588901ef;0x7aa673fd8266e;0xe0ea2218f99ef;0xbfb15dfa691f3;0x1];[0x1;0x92bfde92cd700;0x59b427fbb630f;0x37e3cc54ef403;0xfc7b0bed58de;0x1352a7505ddd4];[0x0;0x7f6408c3e58b0;0x60a5cb0300ccb;0xcbe8b2b8e855c;0xd7790f7d0e902;0x50d5e2386498a]];
 [[0xff0aec8a3745a;0x6143acad7e42c;0x415571b0d384f;0xc05ddbeb4e2b1;0x7895ece3d578];[0x1;0x91b1098947aa;0x1f38ee75aaee2;0xbaba77e03a913;0x8d4ca7a70fa20;0x1660e1dfa158e;0x1];[0x1;0xcf62dd75b90bc;0x6ad8c6f76b0c1;0x10e16cab0cc4b;0x130af07b7c43f;0x1265c67ecd463];[0x0;0xddadb9297d97a;0xfff577556e003;0x58fe4fea5a54b;0xdd5ed4382a36e;0xd95d0c1f3cc39]];
 [[0x1c847fd86b42a;0xa93acd51c0a29;0x5d2763218a50d;0x50add6b364b83;0x1f6f9c12475d];[0x1;0xfcf95d33db11a;0x5cae91482db45;0x2438694e31e6d;0x21bb4f935791a;0xcfdc97de0a0b3;0x1];[0x1;0x5f401b957a77c;0x35716091f9552;0xe5a40135060c1;0x8427745b2b3f1;0x16888b7045bcc];[0x0;0x3a7115c9f60ac;0xc9faee7a2edff;0x5b01f12bc96ba;0x7df6016cfdac2;0x3455d6a26206e]]]
 (V [0x2934fc7152b62;0x7ba2ac8d01518;0xa118496cc5257;0x149f5e9395bf;0x10d0d3962c22] [0xd19e4c4ae8b4c;0xd91867df0e00;0x56e340ca9e0c1;0xdc972e602eafd;0x6d86030fb825]) [[0xe570655a11892;0xf912ee5ecbc49;0x214224139b6dd;0x728fe62a2b9c5;0x6255b5d50b77];[0x1;0x54569f7c0e826;0xcea83e8a478f3;0x9e708921a6350;0xd518db118bb5b;0x50b7659d6ed22;0x1];[0x1;0xc6c8803bdcc1c;0xd127cddeabbf6;0xe0c9daba4c94;0x77a5e813d9ba5;0x666459afadda];[0x0;0xed18e8de97b4e;0x9aa5c9c9cd31d;0x7ac5223e60c15;0xe557760c619b4;0xbc64dfd148b1b]]
 [((V [0xb244cd5127bdf;0xef1ce13f995ad;0xfcd30897560f6;0xf43ce2fd3bea5;0x6d4a2befa74] [0x79ecb200ab1f7;0x31ccb0422b0c;0x82cfa0a630113;0xeb6790a81d06;0x517d563b3387]),[[0x26ffd31239ff1;0x2c16596f2f3be;0xa89301ccf0b0c;0xbaaa3e2732abe;0x3baedba840ae];[0xe0ef777a7ad38;0x70e1c7c0e5880;0x60a8194fe274d;0x655dda3019347;0x7534dc1ec86d];[0x1;0x2a15c2f6dd3dc;0x898b2ea46d72a;0x68bef27d4cdd4;0x12356b5c6816b;0xe8342ea70001];[0x1;0x2e3c288fc1328;0xbbd4edfbf48a7;0xc5b426d9f1e43;0xf7aa37043b58c;0x2591a61a7611d];[0x1;0x6c97bb5e88477;0xfcefb62c9379f;0x2c337f6d69a41;0x64015b620b3c5;0x35187278df6e];[0x0;0x794cd9adb48dc;0x4e5cdad73b3a6;0xf511b7c85d548;0x87d57c4cfc84f;0x6382b8092b035]]);
 ((V [0x3e89f9fcda25d;0xe4690a52b7ffa;0x8e1c467583ec4;0x73fb3bdf37b15;0x49ebe5b5bd5f] [0x1e0938f9929cf;0x507545a00f312;0xc6d38dd35c72a;0xfc986611c83e1;0x7b76ad475c32]),[[0xd46225d736c52;0x35305f505bf80;0x1b8428cb6218b;0x2c413bdc9402;0x5ab81c261ff2];[0x484ff4648ef53;0xeecdedb5068b5;0x729e6a89413ad;0x700c1ba058bb5;0x20f40e45b602];[0x1;0xcbd65dacaa217;0x47b2402e45d55;0x6773b63be6857;0xbedff8c894c50;0x418acc0d9cff];[0x1;0xc4d7914543a64;0xcf307344d42d2;0xa6332b578b431;0x9a63bfd1b19fb;0x5235a82fb892];[0x1;0x53a219d901d1c;0x86055ba73cea5;0x966ceb43d6efe;0xd3e973574a6f3;0x6ede6600d3d9];[0x0;0x7941e855559d6;0x5bfa5541c9eb9;0x3ffdde13ad810;0xda34aacf825c4;0x9e846be9e28ac]]);
 ((V [0x65e118a8a04e0;0x18553a35f0b99;0x5b412e236fe38;0x67a1151d7e7ad;0x36dd25488dba] [0xb78a39897bcac;0x4869c078bcdec;0x6162251d81d3e;0x770dc3c170c9f;0x2e9938d4fafd]),[[0xac380db7b98a8;0x65d6089716b5f;0x63501d8953b0c;0x98319e072e401;0x358e65dda310];[0x7479a1193f31;0x69dd3dd8807c2;0x24d39442fea9b;0xef7ead8edf1f9;0x1aba5efe8532];[0x1;0x4a066872fdf4f;0xc3717e969e025;0x6a3116db93750;0x5890b7342ca7d;0xac3f93aaad4];[0x1;0x3864bbc5034d0;0x7bad3f6d60aa5;0x88e9d1835089d;0x9627f01566762;0x390d3ea4b6ad];[0x1;0x6b5fea96ff7c0;0xbdaa39382a990;0x8b97dc26ddd70;0xcf383f8b2b013;0x17f0156a23115];[0x0;0x64b219e194cf0;0x4d25c2bba323d;0x24f4e6d14f69e;0x8ef8920cebfd4;0x59b34a48ea933]]);
 ((V [0x1b74439596ce4;0xc55dbfde42620;0x935393b1d8ae2;0x1a2f9f7835445;0x66a354a18dac] [0x1829c638cefbd;0xfe1269e2fc232;0x4cd8ba1722020;0x10700117adabc;0x23a2e49646bd]),[[0xe9723b61af6cc;0xfbd10aa9d5515;0x94d89a54c68c7;0x54705666ce9a3;0x4232c0ba28b7];[0x8438300a1557c;0x38b46603df669;0x7dad0bd55a0a;0x4135e93fc3e83;0x19a93d7f6d1f];[0x1;0xcbea6be739c00;0xcd91b1c231b69;0xba3c98a449e4a;0xb83e3de64a0ec;0x1bce6576d943];[0x1;0xa07a06ade78e0;0x6515cb51e9a07;0x742704691fcf0;0xb367e9930c705;0x69c47a595010];[0x1;0x4c5311742ef0;0x2afa9b28e1f96;0x23c4446ea437;0x6bb16376da0a3;0x1867ed385a4a5];[0x0;0x369ef9345ed9c;0x16377f7eb9768;0x217de88d6d2b9;0x901e65877c931;0x7cb5d7b65973b]])]
 [[0x4dc0a28af7c85;0x5dbe9d47c10b7;0x54e06c056b0a1;0xb5d556c02d7f3;0x79fc9964e09f];[0x3eb3e815d70c6;0x6dd91dfb18278;0x62ab279a6f91a;0x981a50fec0d6f;0x4b56d07d2162];[0x1;0x19148b93d2270;0x7208e43b211df;0x318d63e9a7b15;0x3e4d266d546f1;0x446081af0591];[0x1;0xbf8f0bc110f4e;0x178db43f532b1;0x711bb523591eb;0x1b319258e13ad;0x1801c43f504cc];[0x1;0xc4053b2c29b7f;0x60b24c50195a7;0x553597ca27ef5;0x8f71266369dd6;0x13572e37f89a8];[0x0;0x2c219c139aef6;0x8f91114219684;0x44876692fcc04;0x3b8fbc7fb2cbb;0xf55d196f76915]].
Definition wit_B_64_5 : colwit ipt wit := mk_colwit (V [0x41080c4d22cac;0xde4c1fd6d7f0b;0xa7690ac8449eb;0xc0a40e11140a9;0x7e95d4bb480a] [0x45d71a64d8dc6;0xd3027eae533ae;0xfe3c8331cd31f;0xc2e7b896df6bc;0xefd9a79658e])
 [[0xf5ba8268affea;0x5a2aa9484044f;0xe6258627815d4;0x3dd428db5255f;0x2d27ac946aa7];[0x1829df4d3e2e;0xcd1e5832f0462;0x297f8989d9df1;0xfe674d11226eb;0x39510674ec60];[0x1;0x730e60c2503f7;0x6e40d573741fa;0x5fc3906458518;0xeb8d17ab6553f;0x722f3fabff2b];[0x1;0xa17d85baaa9e8;0x8208f59ff9e82;0x534ae5c7db73e;0x5771a01f5e6dd;0x12de54c2deaa6];[0x1;0x72f9058b7847c;0xe5ca162c0a802;0x5be23185fca0;0x70d5664ad313f;0x10b8be2c3a353];[0x0;0x7984fddb34cd8;0xfd311fdde90d;0xe25763cb28ca5;0x83c1da4940311;0x513156d4ad185]]
 [[[0x5ed744476a17c;0x1697ae712c8dd;0xc78856605249f;0xd7e365fce9a8a;0x70d605e2d48e];[0x1;0x40e242fde2318;0x58d27854e8b96;0x79209efd96bd5;0x2b17bb55a3a1c;0x1b26a88f0bead;0x1];[0x1;0xffcbb3f043170;0xaddb13d75a22f;0x79ccdd32f0f6;0x7d6f2b8c11052;0x16758334bb906];[0x0;0x38ddbe13c332c;0x3de6c6252c014;0xb4e16674b53d6;0x863b3822999da;0xd5f8c437d7a21]];
 [[0x43cb8474e942e;0x2e95a20a77d20;0xd110d7d6b8850;0x13d2c59c3fe76;0x6ba9009c6ab9];[0x1;0x1ef31c2b8d514;0x305f8f582a;0xf5483e555e9be;0x437288d24c375;0x2bb24ae82c33a;0x1];[0x1;0xda937c4edff1c;0xe15ae7ca11bfb;0x2b55b83904b04;0x2f1bd2eab1820;0x1d3b7634a5c91];[0x0;0x7e1d7b9e446ae;0x13d6c8bba3994;0x5370c1cd9fbb2;0x1dda3bf95d322;0xc9ab9c7113d1a]];
 [[0x7d948a5cd59ab;0x903eaca9c5b01;0xfe56f4e4746b8;0xb5bf29487eb07;0x35d37a76928e];[0x1;0x4928d2a173d22;0xaaa53fbf83aec;0x79dcd9970a247;0xeef190d6ba14c;0x9124eaf9eb0d4;0x1];[0x1;0x255fe36d6b35f;0x2f97838ef3227;0xc66762eeeb70b;0x18ab26dd2da0c;0x17b7fad1068e3];[0x0;0x4777a8cce5e2c;0x52e42201505e8;0x8213aad559c2b;0x730ee9e98e2e1;0x573603bdc5f0f]];
 [[0x3b8973d1761dc;0x4e9d2b9d0f7d1;0x731045fde8485;0xeb299ebcd3c25;0x3c9ef0ab3e34];[0x1;0x39a4cdf33994;0x26ccc9f78c171;0x3af53cc10e0fe;0x7f36a15b345b0;0x88a328959d4cb;0x1];[0x1;0x7961e9dd74870;0xc48384cfbd527;0xd99044b663180;0x7bc5ac5cce1c2;0x1c91fb59cbe65];[0x0;0x2eb88db507f54;0x46a25ecf23e57;0x496292122dfd3;0x43f9cdf53b984;0x69093e720492b]];
 [[0x7f73998fafcc7;0x184e6b54379cd;0x4aa61b4a10173;0xedf38b26bf83e;0x6f4b57d73d0f];[0x1;0xd4ceb31871f37;0x9c5ce4513961e;0x20b546de088ac;0x384c84a47407a;0x223cfda8ee79c;0x1];[0x1;0x7a83d36748227;0x1d4ea21779e6d;0x819145be82101;0x7f9e37f1d06b4;0x1d0b782194e11];[0x0;0x58d04eefdff87;0xa473c2ea6a17b;0x7a516cf71c469;0x9fca417565a9b;0xd67e7fff34642]];
 [[0x7a1666ef657b7;0x3eb6c5d8205e4;0xab8870958859d;0x613bcf61234ed;0x5b3ec0711cfd];[0x1;0xd6411efe53147;0x4c3d2f6075026;0xfdb6619a26420;0xa59d01f4377c;0x49a46b4d51c0d;0x1];[0x1;0xe9de8f59abb07;0xc64bfb9be2d6a;0x9bb1caac9cbc;0xb82f143250da7;0x1edddbb69df05];[0x0;0x2eca53c18d218;0x53c591ca1490f;0xb88202fb3c985;0x1dbc0495138c4;0xa5319fd1e23eb]];
 [[0x5a4d250333572;0xa8aed8a6450;0x663c599d0b1;0xfc56f7d334cad;0x4eaf51799342];[0x1;0x79e20f87ce934;0x1e204c5947ff7;0xbd7069ed2576d;0xffdd96b4e5268;0x623e25098ad04;0x1];[0x1;0xb9807686acc9c;0x412f654728b4e;0x9db16b367a8f8;0xb7e4aa4e403d1;0x286a3efa9a31f];[0x0;0xa05624245b620;0x2da5af6e8769b;0xf2b3b518bb13d;0x1b9de8526d49a;0x938f17809672b]];
 [[0xc6cfd2ff33316;0x1de4bcb768bb2;0x9d2646eae8a49;0x9564633ccc263;0x1c42f30d3ff3];[0x1;0x7239f06682692;0x957d3734564a5;0x343b5e67333d0;0xa2acd2d8089d7;0xd603daed83937;0x1];[0x1;0xbc6786599207c;0x80b93d537ae1d;0x4ebea9d15d994;0xa62ef0bcd693d;0x20ef46a9fa245];[0x0;0x91de6a6121d8;0x563608f309350;0x71e10c64e7dac;0x9051707b14bce;0x349c1f7c332b3]];
 [[0x4d3da3007a99d;0x4fa02b8dc3de5;0xe52e0274afa79;0xd5781c2b30114;0x476472a052e3];[0x1;0x2d3913d0a5c78;0x9795c7eedce20;0xaca63af586e2a;0x358a1db8e4363;0x752ebec4f0471;0x1];[0x1;0xbe454ff7a16cf;0x43d7ea5311438;0x591c82301731f;0xdb0c5cf48dcd6;0x1d2a037b21bcc];[0x0;0x217dfd858c1af;0xe059a24138d56;0xc5c538172bfb0;0xe358b7892f145;0x834592b288b1d]];
 [[0x9c25252845bd2;0x78a5d13474f76;0x8b493136a297a;0x9e991bd59144f;0x2cf40352d29d];[0x1;0x1fe4f14b7e4dc;0x274567d671d5c;0x944523cd6068f;0x9c547fe054fa8;0xadaab89560a1d;0x1];[0x1;0xf741ea8563f1c;0xfcd00d9ef5508;0x4a70111f97663;0xe2c55821a49a8;0x1d27a7ab85c7e];[0x0;0xbf859fbe00238;0xc88b40b1d1639;0x967f965b4a35c;0x775eb6faae047;0x4ad5d0d7264da]];
 [[0x29c97360453e8;0x284ca38d4ec17;0x7aae1283992e0;0xcf7adf5f3948f;0x27ea91bf313];[0x1;0x80f90b84614b8;0x1e92a748d2701;0xaa14d2b2a73f;0x331730e6baaf0;0xff84cf2b26314;0x1];[0x1;0xaa692eb6483c0;0xf587a69607ddf;0xe2596284240c6;0x1b0385ff1788b;0x1f705ef9485ce];[0x1;0x3fb7b0eeea038;0x6ae4ff8b3c81;0x1749494797e0e;0x11ca082c08c5c;0x11549e34dd3db]];
 [[0x47ca37159c9d6;0x6539c82ffef20;0x3a1102c3a0cc5;0x9328e59a88f1b;0x4646116e7503];[0x1;0x1c86f64179b3a;0xd64c613d7914c;0xc04a4d3a935b7;0x3c94eb5022a9d;0x776fd22f986f0;0x1];[0x1;0x2513a2b96bf7c;0x69fec0d548609;0x298372958adee;0x4335c83efa525;0x2b65d1d8ef02b];[0x0;0xc6b204156cb42;0x5a5558c8391a0;0x61abad3236cc1;0x3feba2f31be4e;0x79fe90abcecdb]];
 [[0xf33bf0db03a8c;0x9d51c5c0c91d3;0x59d07d14bdb74;0xdde26eaa7d341;0x6ffd654c6b39];[0x1;0x4e50b590b397c;0x1041ba4a18ae3;0xc9da315fcbdf0;0x6bf379d5669bb;0x1cd809016691a;0x1];[0x1;0xf521dfe0894f0;0x377f3826dfb39;0x41f56c65de85f;0xc1d726560d852;0x226fd1c08e095];[0x0;0x35b405ab2280c;0x7a56a06fd7c17;0x410d6fcaaee76;0x19b3a5730adb3;0xd2bdabc7a02dc]];
 [[0xe32eb115203c6;0xe33f13a2cbe38;0x8bbdf3c7b736a;0x20938c95386f;0x1298c4b3b59a];[0x1;0x5c8e500ae373e;0xc67e94655b95f;0xbe5d34bb2e96e;0x76e413a364f7c;0xe23d285bb7d82;0x1];[0x1;0x314b26c37a73c;0x3a7d0c50a842d;0x4f87033ec23b6;0xe0791f8e47d16;0x266c6f533b674];[0x0;0x46dd11e3e7b6e;0x4e8f530377d38;0xa0bcd93249f30;0x573a665f9a50a;0x1cf7afc76584f]];
 [[0x8e5b784d6551e;0x3a0397edc7970;0xbec81ca77098e;0xa4af6395f757c;0x3166ddbcc4c];[0x1;0x53410d18751ee;0x195a0e76bd34;0x244896e29fe89;0x99ec4626edd5b;0xb2871e0188a8;0x2];[0x1;0x2d78240d345dc;0x62d3c62b97163;0x9e405869c8e20;0xe64070ad7ab82;0x1dc8c3f9bdd7d];[0x1;0xdb3c9374166ee;0x5e7af7ec40b39;0xf47cf8359d5f3;0x44361c1b229ef;0x990b47f20f12]]]
 (V [0xd520046b5d660;0x7562cd7123fa6;0x6940202031609;0x5bf9e2100bd52;0x16bf4bc19480] [0x84b01ea0d3f27;0x5f5b2f102188a;0xc677cd357ad3c;0x43031c6a1fbd6;0x650bd0602357]) [[0xf90d2bcb2cd6b;0xe6b5ad8cc1260;0x2d5ad3a81fde6;0x8adfd8d94c36c;0x4d02735298f];[0x1;0xb8f29cdfb26e8;0xfa75d97e53fb1;0x53f5b059373f5;0x914bbc622049;0xfdbfedb99bda7;0x1];[0x1;0x879183329dcdf;0x43e925e69efeb;0xeff22ec67e0cc;0xd6777ca1c4d44;0x4bcc346875c6];[0x1;0xabb72f8d3afd5;0xf319cc59303f2;0xa734e221c666c;0xf238147b82165;0x128119ef22e84]]
 [((V [0x3e817794007ba;0xe1ad27b495456;0x6bb554676b3e6;0xc1334724dba92;0x785ae61c9654] [0x664263d87d4b0;0x17cc264dfe9b3;0x2919ad003c1a5;0x9b247b0870729;0x7a829143896f]),[[0xdfaeb7ecc455f;0x3c335a6545249;0xa463170cc485b;0x3eac24ab8762f;0x73436f91541f];[0x46268587fe74;0x99a58a0d0115e;0x74ba2c485a0c6;0xa911922d55ee7;0x8810976bcc7];[0x1;0x5afb62533bc00;0xe6b8c868643fc;0x2535a6e197b25;0x4a9d5bef805c;0xcf732feabf6];[0x0;0x44a0d36d7c1c2;0x52bc5351e2f84;0x9093b51f2f61;0x82a013a3e63b5;0x82f57a286873];[0x1;0xbffa209d4cd17;0xb050528c04010;0x4d19a2184bdf4;0xa1429a9b4505;0xe3e7ab3f2e20];[0x0;0x52c6cde0981e9;0x3d8848f39c8bb;0xca5c2f85d1455;0xd84efce963858;0xcc4af65402ceb]]);
 ((V [0x6bcdd4e7c5c60;0xe8e849abbaac2;0x1e2e87358200e;0x22b553963b4e1;0x5248137f7caa] [0xed73a44fccc8d;0xae39a523b189b;0x30935bda4d936;0x131b249cd39b3;0x5df610ad805a]),[[0xf033ac9ad1433;0x86e295b078e95;0x205a07a8f3b23;0xce4bd2bcb0956;0x5888844f53f7];[0x68c5934659f46;0xf4fb1440fca53;0xf50f29e8730db;0xc006eb80e439a;0x3e985fede22c];[0x1;0x6ee9b8692c13c;0xfa237d572074e;0x4f3b66c1830f8;0x6bfaf58cf5b6d;0xc060fd8f498];[0x1;0x51a35546a1ce0;0x6354f2293a027;0x99d5ca2ed88cb;0xb3a839b92a5ca;0xce19651c9b0c];[0x1;0xcdfb985e1f3ef;0x27aecae142f9b;0xef2ca5d83a596;0x51a02a6859f4f;0x248bf77ea8ddc];[0x0;0x236ddfc7973b1;0xcb36e9606a0bb;0x78cd2a91c2ebf;0xb734d5842eeb0;0x9d2fd567e89b8]]);
 ((V [0x7dbdc25bf25b5;0xe771877afe71a;0x7718688f993f6;0x9c627f2406996;0x28812640452b] [0xe0a352c02f1ba;0x71b252e952372;0x311f1704f8dc;0x28bf64c171d9f;0x5fc4141a9b85]),[[0xe75c9caa47226;0x69c3c986b46fa;0x2612b03eb61f;0xc842ec7978d9d;0x5e67c59840b1];[0xe063d405cce9;0xe2545332e2f54;0x3ddea320b4b0e;0x9803f55dfd4d0;0x1528e111fd09];[0x0;0xfd1a7830c400;0x13530544b7c68;0xbbe502b445b79;0x63d3d1afc46ab;0xa92bf6d500b];[0x0;0x8ca5b5ae86a3c;0x781d57405df0c;0x61f5b709f4781;0xb4bcb3c64ee6;0xba47c2eb03e];[0x1;0x1b4c1412332bc;0x9b67f1063c4ee;0x6cd8d5da19d72;0x2b1cb23d9f652;0x15481dc25abeb];[0x0;0x20474da7e098;0x19af9b833e6b2;0x34b4324d23771;0x6eeb4c2f5f709;0xacebc23db4f46]]);
 ((V [0x8dced55e53f1d;0x33feb978ad704;0x4439df41bf047;0x4b9ba3e6c72d1;0x58486bc28a12] [0x9514fee33bc9a;0x5cd69a9c88d;0xdb7d5511d2426;0x763c70c505afa;0x23009284a9b]),[[0x6f96aa93c619f;0xc189e718eaee4;0x3c6293ab558a7;0x154f0876d4cd;0x37315f45bc56];[0xeeafb9833f899;0x165e9cda4eea2;0x79aec4e8b6844;0xabb870989ced5;0x4c379c04cfe3];[0x1;0xfa44ae0ad139f;0xdbae6e37beedb;0x7180fdca533ae;0x6074e55a7faaf;0x8b9dfdd24f92];[0x1;0x6ff5345a20314;0xd193b3c201218;0xef1861cd7496f;0xad4a4c3b632f8;0x176b746273642];[0x1;0xa585b1071d997;0xcdf66a8e6d287;0xc88728b81ca0c;0x443574d0bcd26;0x13ac8ef9b02ab];[0x0;0x4b38bd8ce0227;0xbd97f2e4f4854;0xbbd85d3c8b6d9;0x7e8c0e839ac3e;0x644daffc0f80c]])]
 [[0xe90e8cacc68ee;0xed301e472533;0xbd1ea5f6f43bc;0xcab8d8aba58ce;0x2ab745681673];[0x4a0adb0d59bf3;0xee2f65f4de5ce;0xbbb1afc87a9e4;0xe75431e93850d;0x632c72e78fcf];[0x1;0x250e8abae1fcf;0x17755dba7304c;0x67e7a7dceacf7;0xeb9ba08fdfaff;0x897528aa0c32];[0x1;0xcffe168a85fe8;0x7405188a1a2c4;0xc0e146e315651;0x478e58154aca6;0x25194e7b16601];[0x1;0x325c5b87ab21c;0x3ef8abf64d2e;0x647f4e7942de0;0xfffe4ccc24fea;0x22e865d43ac8d];[0x0;0xb3f0559dd58f2;0x790a5ae577a90;0xf6be0e76eb05e;0x46404e435649;0x4de55014c3ebc]].
Definition wit_B_64_6 : colwit ipt wit := mk_colwit (V [0x51d9f133eb5f8;0xe9d1ca53c741a;0xe9d4229127e4c;0x3dffbf2e999e1;0x50bcd7dea62b] [0x97a91358016bb;0x2a59a5dcc1e26;0xd8946c59e24e7;0xb8a3c13ea6c88;0x596fef94ab84])
 [[0x486592f390bc8;0x38ff3562251f4;0xdfe6e181522f7;0x5778770c5db5a;0x61d4872a1db1];[0xc7aeff803c0a2;0x95faea25ec255;0x27a37796198d7;0x3a1400b65dcb8;0x1cdf6223cf20];[0x0;0x4f1329427b6e9;0x64bc42d2e2d1e;0x4b44ea0361f73;0xc436d5b003673;0x247bee8c543f];[0x1;0x6eeaa5697c70;0x28b3c2d2c3acb;0xf3119d8b6efc0;0x5677aa25f011d;0x3944ff02e72b];[0x1;0x8c897a5969c0;0xac8a213582252;0xf19598f1dba47;0x9091a84991044;0x20e00265e099f];[0x0;0xff07e98e2c900;0x2372032106af2;0x831f574fd3a98;0x4969324ee16b1;0xb68061189a336]]
 [[[0x85dd66f80ceec;0xd855dd39a36ad;0xb7b501863ffa0;0xb315d98f74d64;0x2a350499de4a];[0x1;0xf9a768f56fca8;0x361f54cb000b6;0xb615eed9fe40e;0x4235c965db282;0xbb3e7086d061e;0x1];[0x1;0xe892393b51ff0;0xc03ac9ec66176;0xdba9b5cf5c3f5;0x31a05e1fca9ee;0x25df9317a5a3f];[0x0;0x670564023956c;0xf8f8956c66c3e;0x3ae023ad9d190;0xddc5dfe0330d7;0x49cff204063e5]];
 [[0xd87115174bbb9;0xef0537cf49791;0x2b6e3cb2ddc64;0x252cf6c177224;0x3f39c48b724c];[0x1;0x13f8f64e256ae;0x4a1b62c8e1108;0xfa0fd72a2fed0;0x3c4e822df094;0x9668f69230f83;0x1];[0x1;0xfcf7d228d3127;0x846fa860a8e18;0x6e6d0290bb07a;0xb340e098344f8;0x19b4d79731bb2];[0x0;0xb30dcb7b4d8bc;0x95834ac935b11;0x8e16e6274743b;0x4853634b064a2;0x73ba08d4ea02d]];
 [[0xcce55cc5bd862;0xe478587cd2a85;0x3a609dbc514ec;0x1bbd81c86afbf;0x2ff534f36d64];[0x1;0x9942891797a66;0xcdac7d1e92e2a;0xa4243fe34dee3;0xc129ded716f2a;0xa8b8cfdc4953b;0x1];[0x1;0x9683b76da3fdc;0x75e5ed6f678e3;0xccf9b379dfa7f;0x5fc292ff7fa70;0x1309af08b7e38];[0x0;0x30a213c9e68e0;0xd1582d08eb964;0x3e50b2b6f42d4;0x6d50f1eb15c0e;0x443c6eac47cb4]];
 [[0x60023ce0ce4eb;0xac621b29507a3;0xfff4097af03e9;0x4b369f8c9e2e0;0x51cf3ad53fc2];[0x1;0x7393c323e561c;0xb69cf382ae180;0x6e0bfdad5b1f3;0x507d70579ab95;0x61f6a973c1ef2;0x1];[0x1;0x7efdbb2a5afdf;0x6471178a3bbb8;0x933f60c40e78d;0x3260d32002632;0x14d7f37425c36];[0x0;0xe4f99c1aa5a94;0xf5861ba7b65d;0xb0c1f9d5dc87e;0x49058bc964fe3;0x9394c3e9d468e]];
 [[0x5af97f52e5860;0x4e75adf4cc42d;0xff46c02f5ef8c;0xaf0f9d9ae259c;0x5774120de314];[0x1;0x7104c9f0fdd60;0x11d90c1471153;0x820c945df36b1;0xb4e23d8295e41;0x5fd3b8d84eec8;0x1];[0x1;0xebc08089a3c00;0xb400c4b7ef66d;0x5d9ac31b82916;0xa982808fa14b0;0x15bb0b3a0e837];[0x0;0xb48949e829880;0xd30200ba13f3f;0xa4c683097587c;0x3e4f253d207f4;0xaa1dcb61aaa1c]];
 [[0x7174f10eb1a85;0x7721dc8934ca2;0xaf2a2c67d3b83;0x73a6bfd02e844;0x17a3950b12f0];[0x1;0x3ca90df783a6;0xc59a5f21621e;0x492134653df38;0xd743b0cacb203;0xe693fe3b9f789;0x1];[0x1;0xd4ce12cfb8f7f;0xac079a8510c7;0x4e95b7e3141ab;0xdcc947a4f329c;0x1a1c6426b6be8];[0x0;0xd6a54344e7efb;0x949d69b0b6984;0x48671d89b74b0;0xd6e0a99687723;0x213471cc7a8d0]];
 [[0xd281dedc62187;0xe23a740c47120;0xc698ecf4131da;0x5ef36f07c2327;0x4358103d81dc];[0x1;0xc1f01df3e62f0;0x46ec4c3cab5e4;0x2394614243fd9;0x8fa6ffe58b4e6;0x83a951e288895;0x1];[0x1;0x439ceef22ba7;0xf0e4822bc480c;0xe4d0e2b9e2393;0x4cd152d606339;0x1556c2433f6c4];[0x0;0xa20a30462602a;0x481a62decf197;0xf4273871b49ad;0x1380077de4e90;0x7dd72bf0d2723]];
 [[0x8d3afa8e2ee00;0xb91f8b822c70c;0xde4c298ecdb13;0x901b0096445c6;0xa1247a0fed2];[0x1;0x2ea941974fa00;0x3eed2c2027c79;0xe524a4b092399;0xe124f55a6d892;0x4b8187ea6f0f;0x2];[0x1;0xcc15e1a1c0000;0xbdd127d90041d;0x77f1f03c25ffe;0xbb865269dc73e;0x176a5d6b5f6cc];[0x0;0x6c1fb32cb4200;0x9904fb1780d9d;0xd0e38fc107acb;0x9be20c1361d13;0xa45e5336360b]];
 [[0x5ffe0c5bd3d5e;0xf0d0b5a506dd5;0xc3e716ba325c5;0x358958ef22e3f;0x245e37b11aa1];[0x1;0xb142e83f0ec96;0xf42aa25cf310b;0xa3c8040a4b478;0x10f8097fcf55e;0xc6e0274e0500b;0x1];[0x1;0x705ff23c5eedc;0x984696e009947;0x8e782d71c237e;0x5501f6fc460ab;0x1608e58e5363d];[0x0;0x161bea117a666;0x1434a8740f792;0xa05ad38382459;0xab746a577aaec;0x3a8edb3330cf1]];
 [[0xe332dece6a61a;0x7a6588ad5d77b;0x2f947915a40cc;0x3382bb9c670e7;0x7c6c3d87f552];[0x1;0xc00baa0efebea;0x84bae0b55cc92;0xbc0e96127258e;0x4f215d2225ec0;0x104e69d5eb672;0x1];[0x1;0x2b630cd874dbc;0x71b911ac8d96c;0x6aeab4e3dddd0;0xc018be74a59b3;0x11ce08b6ed5f6];[0x0;0x1f2c4895c21b4;0xe44c29fe31aec;0xfc2bd3ad6f210;0x6156620c5a777;0xf0fee2fcd197a]];
 [[0x3c024959bfa6f;0x87e2114d281ca;0xb9b867b71a225;0x2783d8a2aa29b;0x46a841bc4f53];[0x1;0xda19fe8c2e698;0xb565065ce2750;0x4b18eb4763207;0x68bf3c92ed5b8;0x8415ec5963d91;0x1];[0x1;0x5cce3ade32737;0x2cfecd9ecb3ba;0x17749ce81984d;0x83266a7914b8e;0x16389c1273913];[0x0;0xb210b107f18f7;0x90655a142f56;0xebb5a7cfdc414;0xc3445188547ad;0x8bd00cb72b0e0]];
 [[0x47de8957e82db;0xb2be62cadb0e1;0xf4ac756b06846;0xbd752ff817914;0x351ffc43e56f];[0x1;0x71f35c83408b0;0x2a78931da7081;0x87bc7bfc94033;0xcb6edd2dfdac5;0xaa54ce2554c6d;0x1];[0x1;0x99769ac04173f;0xb32ac8416fd71;0xb4705a86babdc;0xafc11914aaf00;0x1a4ba76964eaa];[0x0;0x111115b19ea96;0x1f58e65cf5108;0xc2db147fb667c;0xfa70c0112caa9;0x5e32b93741d47]];
 [[0xa56f111c29da7;0xb391f2e757b76;0x9c04b16b95ad4;0x39238a8f67bf5;0x45ea97333c96];[0x1;0xa593239180449;0x245ad177c1dba;0x2e9a60959508b;0x23c00e1304eb1;0x8056f086d447b;0x1];[0x1;0x114d72c69b7e7;0x89ddcd413728;0xa49470705b877;0x2251692725d70;0x1568ef4f0a217];[0x0;0xd2e6487f9a14d;0x5b3690eefb774;0xc840560a744d5;0x7bf54bc10ed07;0x78d611b285ec5]];
 [[0xccb4ba9843ace;0x730219f80b297;0x984250a4c6481;0x894e6fe2227fb;0x38fa22187c62];[0x1;0x44728aba60886;0x3c3197f724702;0x32b9f3b65b022;0xc4f50bf871185;0x9438c884489d9;0x1];[0x1;0x34e1be4011d9c;0xcbdeb7cc6a8a5;0xb91afb19bbc8b;0xdcc0fc76371b9;0x1779d9a151773];[0x0;0xffb22dad73cfc;0x25adeb2875742;0x56837acf96eee;0x50a880d10f12c;0x60ec8370762e2]];
 [[0x30d9c829e926;0x6872e04983f6e;0x790953d0e7d14;0xfa674b22e7aae;0x63d6d987a400];[0x1;0xb350f1fc69ef8;0x604c1972fa920;0xadf3debef4cc0;0xd4c1eb5b908b4;0x4cbe384219eae;0x1];[0x1;0xf55c82d3bebc;0xce4c4f1a5047f;0x1e247a6fb3e48;0x5374d759a6c05;0x13fd0f6fa89d3];[0x0;0x43ba95de1cc38;0x451daee496fe;0x72e70fc60cc9f;0xc83c89fbee28e;0xd0f691f1fcdc7]]]
 (V [0xe0564db570bbc;0x5f2625e8f3c85;0xe80bd520cdf57;0xf61cab8110822;0x2e2470196826] [0x979b2cf4b3641;0x7d741da33ad02;0x2f63fa067a03a;0x99b32b4dcc337;0x6c9b115364ba]) [[0xe937a44a6a1e;0xb892df1b9dc8f;0xbdf156585d54b;0xdbcadd07d11aa;0x45a70ddd1ca2];[0x1;0x55fff36e155bc;0x58761e101f002;0xe46efb2502661;0xa79075dd67dc2;0x85f746b342031;0x1];[0x1;0xbdf01c98c79dc;0x1b665f24a99ca;0xb2d81ba0959cb;0x7f3f6c17b5966;0x1180f5df88ddf];[0x0;0x289bcb2d0d3a2;0x6788d328fa105;0x9742e4eeaaf36;0x20395443124c2;0x8063c80dceef4]]
 [((V [0xfea5d039eeb65;0x3572bc7284822;0xfa0f15bca6c9a;0x7c9c1bcb52bf5;0x36840c98f1fb] [0xdcda28b706931;0xb60cf58e24be0;0x8df5958a8387;0x3da40baaab1df;0x151c91de936f]),[[0xa83dc428c1726;0xa9daac095dcb0;0x86e16dd20d0e2;0xda6da1234a663;0x345a18aead06];[0x9eeae04fa4ade;0x8ad4dee06b85b;0x71215dc0067e4;0x4fa5f604e09dc;0x7ab96d7abed3];[0x1;0xcf659d07b0370;0xc3638dad56a4;0x7416de5b53ab4;0x8d2dadfad9a54;0xe4d0a003ca53];[0x1;0xfc91b0bad08d4;0x3a0a0b19d1fda;0x372d7b3f91272;0x6e10ef5ab448e;0x28781aed9c821];[0x1;0x2d42a655fd6bc;0x2c34b71e3dd8a;0x13b2458885507;0x7f4cc214242a3;0x11030661edd97];[0x0;0x1d902a69ba160;0xd43bb7d8f4d8f;0x26db4671cb7ef;0xe5e011810e2d7;0x5b8c12bb52940]]);
 ((V [0x3bf70c78af04d;0x7405abf150311;0xa6f0c5f12fb15;0xb4d62ad453689;0x3cc90dbfc6cf] [0x4d4243fe392bd;0x2b7ed66d91117;0x78011b6242c45;0xb5f3fbdb78618;0x67c92c2207c8]),[[0x34cb604d05981;0xe1d8f68f5b530;0x1374cb753931f;0x90eba692ad455;0x2ece67120ede];[0x24d10f2964304;0x188b591c3ae68;0xca3ce8868c081;0xc6421afab2a4d;0x7e66a833a423];[0x1;0x501c9cb6a4bf;0x6e41c7c731ee2;0xd4453c9654ad2;0xe08fd66c5cce6;0xe5955d8c3f6a];[0x1;0xfc410f4b7344e;0x5d73a511cef91;0x662c98634e617;0x3c7f229bf9976;0x2e6f752686ac1];[0x1;0x3f05c18f50d57;0xd7c5832ea1dce;0xfda9f86131219;0x75168d0e28195;0x14284a6fa45be];[0x0;0x8ee7585587879;0xaf2ff52072c14;0xa7ac99e3e62f5;0x21d0f12930519;0x50c84e4ce7bea]]);
 ((V [0xeee6e9cb2fb6e;0xf58e1933b630c;0xcf5d50a44b25f;0x28b0e98904b3b;0x6044a001b879] [0xaacee1a6502f8;0x6dd839390501a;0xea0020ae816f;0x5ffb3ca4c0440;0x566757f7df9b]),[[0xba3f92b3d406d;0x2fdddea5d3c4d;0x5747d4325ec4e;0xdbd6e36f45901;0x70adf0930b7];[0xcc22e2f99a837;0x616f46b2d8177;0x681b3a3cef026;0xf6e1d17c28adf;0x1f79e2a45ce4];[0x1;0x96ff7dfa3b6ef;0xff10a16c8e3c0;0xc6cf3ca5c9433;0xbc3030cba7f67;0x22160c97bfa0];[0x1;0x444c2252e2e3e;0x51e7f5623a870;0x8bdede48871ae;0xcd4ac55f17b24;0xb16fade7b220];[0x1;0x37426b5e87daf;0xfc4f16bbace98;0x22b6f4b378a54;0x658b15890a625;0x1b34a45b12ccb];[0x1;0x90a827a5b9a88;0x9752ced8c50b1;0xb7e8559f34989;0x74db2bb6e2686;0x95ee0d7f6473]]);
 ((V [0xd1b5b95993e97;0x7d2273da34aac;0x6091845a2031f;0x409fa908c0bd5;0x40b5e9e6c6c1] [0xc9966a6455590;0xd0c5c9b028be4;0x9213f12c7660b;0x61f513768112e;0x498af69649c2]),[[0x589825a4f2f73;0x429c657a06480;0xa2b4883baef52;0x79f04a62106fb;0x606f5b3297b0];[0x18639f29372b;0xc8f97a727e9f8;0x5c998787ff05;0x85ad28ab97ebd;0x3e441ce9c332];[0x1;0x643da0c7d1c1c;0xc4a3420b3b9f5;0x997480c9cb1cc;0x60e595d4ef3;0x3421250627d7];[0x1;0x49abefe91fcb0;0x7e63222d7d3bb;0xffe5788b87dcc;0xa57bf522b6c;0xf367532af343];[0x1;0x506a9fad37c6f;0x6f0812effd9a2;0x27004b0ac7bf4;0x5358e8dd390d4;0x1b9d6ea281f25];[0x0;0x3bd93022ce830;0xd4eda6aabe969;0x1968bb9831522;0xe71ea4db92c63;0xb463ca13b4a47]])]
 [[0x36f334c022773;0x85017f755e765;0xb739432a5d15a;0xdcf5a3b4dec07;0x732e38059b38];[0xc58e5851bec41;0xda7e83e47f0d4;0x338fdf19644a2;0x8ab998606c448;0x4e610481459f];[0x1;0x1a505f53b78c7;0xd48ba9bac486e;0xebe596009b258;0xee9db9c9862c4;0x7c0b1c929867];[0x1;0xbb4eb967a09a0;0x234b55fa026af;0xd9312c7d69a7b;0x4ba3405fdd4dc;0x151eb4bb05032];[0x1;0xee09667702c6f;0xd5a38e2a37d6;0x2c56de89b5385;0x2dabc1fe246d4;0xe490dda59b04];[0x0;0x4c900098668b2;0xccf7383e04137;0x211ee7781bfa9;0x792499d529fc3;0xdb04ec64f41bd]].
Definition wit_B_64_7 : colwit ipt wit := mk_colwit (V [0xae422503d2933;0xf3e060999afa3;0x498f6bdec23c5;0xe27cfa9acec79;0x5909476c417c] [0xa59621081213d;0xac137fcf97282;0xf5e4764f24712;0x6ee04689c85cb;0x20f731526c9])
 [[0x4e29edd67490c;0x9fb9339bdbc68;0x36dfed74d6f4c;0x289f6fff07832;0x5defb83b9293];[0xb92fec5947da2;0x766e45049ff7;0x1caa4cceeb9d8;0xf72c561536998;0x70f4195056e3];[0x1;0xfbfe8ffef753c;0xca8d58ac8fbc4;0x1f3b64e5766dd;0x1ae8e26081bfe;0xd764bb7838da];[0x1;0x4124b287f0ab0;0x539f31596ec9b;0x6f5399454faba;0xae85d13cfd7a6;0x225736e548dc1];[0x1;0xbea80123618f0;0x946f166517741;0xe0ffc6361cbff;0xd19193f0348e5;0xffdf1cf8c944];[0x0;0x961eb54849700;0xbd449b3e5f0c4;0xfe81a5561b65b;0x9aa9e1f9f2354;0xb42939fafc47a]]
 [[[0xf0914c5a0677b;0xfe3133216d3a2;0x8c101e5dcd27d;0xbd60cf0ef027e;0x707f3c38e4de];[0x1;0x77012bc2e4e0a;0x90d117cba26e3;0xc30e9a16bce05;0x77e3b7023be7c;0x1a6ec8a29cdcf;0x1];[0x1;0xaa80a6655c37f;0xaf085b9f31493;0x44d5dff46dd18;0xcdcc7a77f450e;0x157d3871a6721];[0x0;0xe6e45f812b8e7;0x31863f7478d4e;0xd6eae9198c427;0xd95ef6e2e2c00;0xd1c44744c4e02]];
 [[0xc18e885986586;0x201c0fdd227ff;0xff5e8d6f038b5;0x4f740e4f0c01a;0x7e89d4ad7b16];[0x1;0xf346ca9e0aa9c;0xaf4bdd3dea5bf;0xff6c02692178e;0x417be3e01bf22;0x395357bcde1e;0x1];[0x1;0x78ee57af69a3c;0x8e91c682e6500;0xccad4b198576b;0xe3cf10e81022b;0x129622d2b93a8];[0x0;0xdc4ff8e74979a;0xf727edb5357eb;0x8dd5f868f8d4e;0x99f1aa1757ac7;0xfa01536bee518]];
 [[0x62534b56f3f1d;0x1da44529b2469;0xb874215036858;0xd99c3529c1786;0x36e92eaab757];[0x1;0x8815c10ccf1dc;0xc9df3df60d93b;0x44fbb6304d03c;0xb430b95b8177b;0x962dc44dca89f;0x1];[0x1;0x83c20e9ca1fcf;0x72ec961c83924;0x1ec0b825e2fd9;0xd41df275515b4;0x174442125ed3b];[0x0;0x2056aa1afa643;0x3d430577ccf56;0xc57c1ff26de86;0x5798837c06f38;0x5e6e0f041b903]];
 [[0xb6fe2fc5eb930;0x87dc614c2eb2d;0xcea90dfee84a6;0x96053ad400f49;0x5dc1b34b60f9];[0x1;0x537866ea1b4a0;0xe35872d8c9349;0x33eb79a1fbf8d;0xffdd23478212;0x44659c400b06c;0x1];[0x1;0xcc0009ab5af00;0xd0778aca01aba;0x3da5689324f40;0x58bf0a0189a7f;0x18eeae51297ba];[0x0;0xc6efe149dc580;0x6a6f83e308f33;0x9932209057619;0x2eabc8bf7edd6;0xb2000741d4b5f]];
 [[0xbb301d5bd8304;0x1d4d0b929119c;0x49f498d84f6ca;0x349e0fc0bd48;0x79c06ec4f1a6];[0x1;0x975757eddb79c;0xe48be2ada9dd0;0x6803bf1c00841;0x979c39dc9272e;0xd76682ade72d;0x1];[0x1;0x5dfcf3bd2ad70;0x1cfab4a539e68;0x890df77486f7a;0xf02a806bbca94;0x14558c7f32d28];[0x0;0x97e0a230da25c;0xd32cf386d03ca;0xf04f1ad33d1e;0xa7b98eacea594;0xe7006f71ca1a4]];
 [[0xb800802dd2c16;0x52518b1892294;0x1a0bfa2c1888c;0xf96f17c4fa6f9;0x7447044c53eb];[0x1;0x59013e5173bb6;0xcdcceee44ef40;0x5ceee05f17bbf;0x2be232bcefa5b;0x11aff2fc27610;0x1];[0x1;0xade58a7d9747c;0x9af0923638864;0x37dd84985fb59;0x499c3dd7c1c50;0xd6b6491f5658];[0x0;0xc51057e4acba;0x8180f8cf22d98;0xecd93f16b918;0xba3fc6cd585d4;0xdc6b252d333f3]];
 [[0xf7a27c17dffc7;0x2292fc027480;0xcd48c1bfb5995;0xf3e53e577fd8b;0x173d29e3f90e];[0x1;0xdd84500b288bd;0xa944deb9cec69;0xd1de06819e348;0x8627b471d021f;0xd5befb9e59d81;0x1];[0x1;0x2b303dd674827;0xf4c88d393db04;0x70d7b22da536f;0x7e3918401eb0e;0x137008bafc84b];[0x0;0x649316b1ff199;0xb04868e3410f5;0xbd31dba446abb;0x6eaf781002e93;0x1d6b663731c12]];
 [[0x8dfd7e06e88d9;0x4a20bdd47ab70;0xa6a89ec3fd49e;0x9468b9e41625b;0x58a34e6e178];[0x1;0x842a37a5bc255;0x2aa3d823f9cef;0xcf78c16bb4866;0x387a4da21c123;0xfc95f0cdb1bec;0x1];[0x1;0x6c3f2362a6ae7;0x9dac700b4b9d6;0xf63b8fe103591;0xf4c9a7d173bd8;0x205f3258a1612];[0x1;0x44cb4b6caf4b5;0xa1564d087f5b5;0x328c3687e860e;0x2e025eb5a928d;0xb52652071a1c]];
 [[0x81019e0cb2e3;0x7082df3608596;0x9912d9ae9f798;0xe10f0ca2e4e36;0x5bf727686158];[0x1;0x21230c20b4551;0x1f29318d7e123;0xbae754ab46a9b;0x9cc6f9823c77d;0x44c462a98c6d8;0x1];[0x1;0x21128776e13cf;0x9825fa4bcff1c;0x2980d66ae1cb0;0x9646754213b78;0x14d306c3ab3b7];[0x0;0x97c49b37e489d;0xf573f3638c040;0x3fcade74e6a63;0x8b9f9af597099;0xa8d0ece0baa75]];
 [[0x65f1e8f027b85;0xe6284507057fe;0x192ff876409c1;0x7a151a7ea6caa;0x6abba0bca806];[0x1;0x53e97813513d1;0x128342501bc2c;0xf34139c0c184f;0xf99a64a735954;0x251ddc4384438;0x1];[0x1;0x369b310d9357f;0x9057b1fe794ae;0x975d1725882b6;0x72041ff28bada;0x1246ad40cb4c8];[0x0;0xdf876a338e49c;0x78a59478360d5;0x95b85d85239f0;0x9618d322126ab;0xbe81493217cbd]];
 [[0x88d7109a48cf5;0xad716c0764034;0x467650a485558;0xbea92d9b89cad;0x1984879e2df9];[0x1;0x321314815953a;0xcefd068ac9d49;0xc2403ba1e06dc;0x2fef1ed2854af;0xcd5c24c2a00b0;0x1];[0x1;0xcab32b9e5af1f;0xe0cb30e71cfd3;0x2768d7c31c077;0xeb27d07b1d7d5;0x2043efa60c12c];[0x0;0xa2c04cf9b151f;0x360826241a594;0x7bee2d8539812;0x3812fb5620ec7;0x20c764ff3c6ef]];
 [[0x2190f9960f4a5;0x9d4feccff0e0;0x4f32726ba9d8a;0x95dbf031c201f;0x705ade17878c];[0x1;0x1295725eb80b0;0x872abd124b972;0x8b43b3298e7f5;0x52ebd25801c99;0x2221e85ce3012;0x1];[0x1;0xa794c3ee6143f;0x77fc1d888071f;0x28a2ebbf94143;0xc5ccdda8246f;0x1708c39f28530];[0x0;0x50d69162c33bc;0x4d711c6662b6f;0x65b8bbcd9015b;0xddf56180befea;0xd7c0ac03fdb0e]];
 [[0x7b688e426e6a5;0x6f9a2901dc0d9;0x6a5af909adcf2;0x40e77c2de3e80;0x48693a408d41];[0x1;0x8d014a6329039;0xb5cde9aad8d15;0xe735c4b0adce8;0x7164eb48fa3f5;0x6f620e733c5e9;0x1];[0x1;0x295793554003f;0x63a23b1e941b;0x184dfe5356b31;0x17f29b8d94851;0x11af3aefcbaa7];[0x0;0xc00abfb925da4;0xd7f290f178c58;0x868768d2ae89;0x4031cbbca6040;0x805f6a7c319e8]];
 [[0x6207986e6c2d3;0xfabd7d30eaa1f;0xdf0134d7c985f;0xfbf79ca1b44fb;0x6eb0d4f887d0];[0x1;0xe3d55fe79296;0xde7b833b35999;0xc39b4e5f443fa;0x48ced0326821;0x1b080353edac2;0x1];[0x1;0x5d7e377faa62f;0x7b2b1553a2327;0x9b6e8152c567f;0xbc8159ffd0a15;0x6c8569111826];[0x0;0x59eaa3975b29f;0xaa2169cfdfc00;0xd99262a169c7e;0xfc09c8a573575;0xcce04916da796]];
 [[0x303e840c48586;0x908144dd1170a;0x4d5a1497f0692;0xa868ed8d423d1;0x25438d44d1e8];[0x1;0x5e2018371fc94;0x370e4b03c3c6c;0x3c02025c0d1e4;0xa2ff8cca82912;0xb706ffc7ced30;0x1];[0x1;0x3fee376891a3c;0x914791bcca1d;0xf2af80a5c6638;0xd000d057f25fa;0xdb1dbec396aa];[0x0;0x2d6d3eef1828e;0xea112d8233fcf;0x2a838e01e7826;0xc8c1e068baccb;0x3ad5b451fa535]]]
 (V [0x919cdccb00a14;0xe8969fb70ed82;0x41fc10eae18c8;0xb4d9dfed07a0b;0x1b8dbc4b3539] [0xeeeb6f4bb274;0xd2d36e3864088;0xd1b955ee4e7e2;0x60e548c529938;0x2c66aa907fc4]) [[0x6ffafecfc6c9f;0x7ef9908e0b810;0x74c9af059cd07;0xa3c6908ba2d1c;0x32337cbe8dcf];[0x1;0x9f74ad4dfac1d;0x3829d498d8ec8;0x832a66d6e2501;0x8bac0e68fbf13;0xabfef726ef50f;0x1];[0x1;0x2d356669f9f97;0x2d96919ebed49;0x143d37a67b3da;0xce6285eb16ada;0x914ac59ccf64];[0x0;0x903806fe0745;0x54e51e79a8089;0x34711986812f4;0xae05def2a371a;0x5ad344cc4feb0]]
 [((V [0x19b3ef2d55385;0x9c8f13e3dbe2;0xe0e06c09cbf2d;0x1076d4394e477;0x348aa58e1b8a] [0x4900e0e660a97;0xffe66cd686f3e;0x75be3255e7529;0x3056aa35a0bc3;0x38c2370d69f6]),[[0xc4260894f8f83;0xc49e38047ed9e;0x4bcc45c148bf1;0xad46dc59ea6b3;0x76d53b99f461];[0xb4a02fd6babe5;0xc9307a00fc6a2;0x94ee514fb6fe4;0x3c32049a98c59;0x731f0ac73901];[0x1;0xc75b6b87ff7f0;0x7276b4a23d339;0x9649b40c79a3c;0xc46bb5ba073b6;0xe04fad2cccdf];[0x1;0x21f0b825c3488;0xaf49a8832031d;0x5492459ad6b0d;0xf7a04f3c12643;0x260490727cd53];[0x1;0xb7699bd0960f;0x9dda095be5512;0x975cdaf025da7;0xe14fba3757ea9;0x68f9b32cb944];[0x0;0xd594c1448498;0xb29ad121bfc87;0x10b7248d14898;0x73912a0fefc2;0xe6ff8241435f4]]);
 ((V [0xefd694a928d7b;0x87140efc6532b;0xb65987b0b5b2f;0x7900308443df6;0x210105f9687b] [0x169751c7f7ab1;0xfc6e730e3cae5;0xc36d136993bba;0xa347b7f97279;0x6857886f3118]),[[0x12ad7f29c2df4;0x720089a095dca;0x9e7ff7537d59a;0xcafdfb94696dc;0x585a17e04f52];[0xb2f38b1759406;0x9fab614e7f991;0xf2dc8d436b798;0xf1629c5b9ad9f;0x3ccf8fec65ec];[0x1;0x8af3d8fb457f;0x952802e885869;0xcf2725b95cc77;0x56ec195b53e0d;0x640de32784ed];[0x1;0xaad422227fc68;0x982dbda9161a0;0x7255dd0a62ae0;0x79cbda9747176;0x11e826d8dcd1b];[0x1;0x535d3dd4880f0;0xba0ca1207e6f2;0xfcac75898798a;0xaab96ef5bfb8d;0xd73081ed3a29];[0x0;0xfd188d719793c;0x5304f14473098;0x7569bb481acc7;0x341521776e523;0xa2ee5f3106ad7]]);
 ((V [0x49d99e21a5125;0xf0a7b9732549f;0x404cba0a28bdb;0xaa84f8eb7ecb6;0x2944d46aa8d9] [0x1dfaea483cdf1;0x2decc5da2a10c;0xc076895d8982f;0x829dd0c2e793d;0x1801b8d35be0]),[[0xab52d0b1cb47a;0x4881b0d118bc8;0x8875254dd81b4;0x5e073f4ba98fb;0x14a74f79087f];[0x5cfb6d621bea6;0x79091658d46e0;0x6b8641c85ab68;0x3c6a08a2526d9;0x68e501e24adc];[0x1;0x1751cb3a9f7f;0xbf9aaf6fec963;0x516aa29cdc321;0xca5f991fcb888;0xc9477cade3ab];[0x1;0xc1e053605052c;0x6866b5fc4b664;0x7cfc5e8916fcf;0x1b1aa478c297;0x253b1eab19fec];[0x1;0xd6b9a9532923c;0x21abb1d12c54a;0x5387e21918024;0x665fcbc81c564;0xd3389d338fcf];[0x0;0x29240c082c616;0x29d594e075d53;0x3a9dedb4ad38;0xcfa00e490aa95;0x1a789563a4a99]]);
 ((V [0xc25e222ffb548;0x2831c84fbc5d4;0x2c71c6a6bb51d;0xa2fb91686a77b;0x3cac0f308510] [0xc41554ffd5b45;0xeacba41d5ebfe;0xe048cd05b9506;0xaaf353a0afab;0x61ff75e418e8]),[[0x56bb902e4c3b5;0x7cce2705e1103;0x1155b04d78f0d;0x96fbde5ed629a;0x56f3e559f332];[0x10c2947b7de20;0xe3367dcab8c3b;0xaaa3f596d5c9a;0xbc8763592261e;0x27d4b256d03b];[0x1;0xfca1ce0cf8f3f;0x3ebf88ab13d8e;0xbab80556ab5d3;0xf85adddb36c85;0x425b27963a76];[0x1;0xa0bb3f65038a6;0xa848efd774c9f;0x4088daa50cfd5;0x14cfd377f1141;0xce5e611b347d];[0x1;0x644dbf468c79f;0x8cd2d8225dde5;0x5c041a799d96e;0x77ac4ab5b9105;0xe359e3206240];[0x0;0x11af63b0c63e;0x529f452b1a507;0x15febf8358871;0xde3b0b8c720e3;0xa343fdeee9a94]])]
 [[0x50c5374907b4d;0xfdcbff2f88d04;0xf3ffb87d8e955;0x91b88c0cf068a;0x5a7b955b1ddf];[0xe2f4f54167a50;0xf49426dd18f45;0xea7166f41d8e9;0xf21722b5fec99;0x5fe6da44940f];[0x1;0xa7e514d91c0;0x93ef946b729c9;0x42715990b1667;0x3d182c0189870;0xa30b7f02d72d];[0x1;0x4af8be4ca1f2e;0xcf56dab26d6e1;0x9f86f7d2f9dbb;0xbe94c3d2ad37e;0x1b4dca429df88];[0x1;0x3435c104b68ef;0x90bba910864b9;0xcfe4a2256491;0xf4e884db3a3e9;0x10c653c1b23c1];[0x0;0x6f266aba1e61b;0x48c1097fa2202;0x62cd947601518;0x7670196968ea9;0xa50a35f104b6b]].
Definition wit_B_64_8 : colwit ipt wit := mk_colwit (V [0xac837bbe4f25f;0x59a22fdaa5592;0x57126dccbce5c;0x212028db5b0b;0x57aba92e6e57] [0xae69075633cf9;0xdb3bba179c26a;0xc45131aa4a3b7;0xe67603b0ea822;0x1f387172f088])
 [[0xe625f5936444d;0x7d7f4122c3fca;0x4cfc63f6b9305;0x848a6be55f694;0x231941cc9bee];[0xda6aa2562e7fe;0x7666d8a05436c;0x821f50fc886a;0xee7dfb8043e4;0x4a5c1db95190];[0x1;0x2b7120d17e71c;0xa1dfe9745e756;0x9a557e0c470e2;0x6aaa8ba557f83;0x8503f8acafc6];[0x1;0x17e83af40fe98;0x6bc969a26c851;0xd0f141e0507c4;0xcc7114b4895c8;0x19226917c2707];[0x1;0x61608b871eeef;0xcdadaef4ab090;0x271823cb4ff95;0xc9022d1c91f1a;0x1590dfecaf772];[0x0;0xc589828b57b9c;0x80cc708c04a7c;0xfe4321fb38cc8;0x6e15ac84e314c;0x39b9397de1fd7]]
 [[[0x3c5b482a7c7a2;0x3ea0ee7a219bc;0x41022334adf6b;0xefc2b5c14d438;0x6f83627b8f82];[0x1;0x6bce36c43b3d4;0x61c297585eef5;0x5b952eb10006b;0x2da088deb5f53;0x218b196ee7588;0x1];[0x1;0xd7395e8237adc;0x3e611ba6fbace;0x686558d4d0c8a;0x940b5b303ba17;0x17c1bfc0a6347];[0x0;0x5d2aa59774ec6;0x78d85181251f3;0xf69b8f2e362c1;0x1c434d2e52f81;0xd838b9fcbccc4]];
 [[0x2e6200564686e;0xeafc98a1dc237;0xad62f28357286;0x3ec4467bd2381;0x9d99605c119];[0x1;0x66029f1194e90;0x4a17ee07e4b99;0x1c5a023e1ef61;0x15056622ec32a;0xff44f5e2ebb37;0x1];[0x1;0xbe68823b7901c;0x61db464c3b514;0xe30ab41ea76a5;0x8158ef41228ff;0x2794fbccc6575];[0x0;0xf963a7df282fa;0xd9751b4cfb41a;0x85e332bd3d77e;0x7a822dd334d4f;0xd9da715a73d1]];
 [[0x76a3422b7281c;0x6763180cbfbc1;0x5090a57deb30f;0x8ad1665ba3407;0x5a32813a4084];[0x1;0x6f6d042517108;0xfa308bba0ebd7;0x651951658cf29;0x90872f94797eb;0x5539eac0f28fe;0x1];[0x1;0x999ddc821ca70;0x7b1cbcb511f13;0x76c594a7f1c94;0x6107c723fb17f;0x22547e7f5aaee];[0x0;0x4dc81e74b3f40;0x5837035803dd4;0x1c799a92134a;0x2e28105cc21c4;0xadc8ea07ed7eb]];
 [[0xffb7f55116e64;0x6e3c38d3d6ead;0xeeaf4eabdeace;0x6fb8ca45e7ea4;0x7c01f9f2186c];[0x1;0x592c5f2629c1c;0x164db30a5e0ae;0x680055bbcf549;0xb8b2bb233725e;0xd5a99e14ee28;0x1];[0x1;0x25775e6e55670;0x7b6c4597d2284;0x224808ec3d2c9;0xe10fa1b4e56fd;0x1a4c42f7367d6];[0x0;0x19fec29e0f77c;0x63c447430fe09;0x447c7a6460127;0xde766657b5686;0xf4a9830620d54]];
 [[0x1735e3715c227;0x7657830f1447d;0xb3283cdb23163;0x2ede3f7a4ad9e;0x3456b8784839];[0x1;0xa8c0ec328f3df;0xff168bc512c99;0x530683c1916e0;0xfdb9494379f09;0xa3993d51b754e;0x1];[0x1;0xcc64af0fb80e7;0x25e2ee43422a2;0x1865f33c0a528;0x7b46ad1115454;0x203bc776c21a5];[0x0;0x4d78832c9bc0c;0xead6956ebee10;0x7826a58c1d47c;0x1e4e839321b0f;0x5dea4d967ca5a]];
 [[0x7cd9579046a3d;0x659299fe0f2b3;0x8320207849779;0xeb466417086e5;0x31f901ab9d2];[0x1;0xd5de442e6d3be;0x2a18b541a6e8e;0x2bcadfe7375e1;0x6cfcd49d10274;0x3f1a2f465c1f;0x2];[0x1;0x9cceb08048f;0x1391af7dae695;0xf79a058b909bc;0x1f7747949281f;0x1a93fa366672a];[0x1;0x26133a50fa6bc;0x924ad2e20275c;0x48ac077f5413;0x89ad64fc340af;0x1110dc152ce23]];
 [[0x5f7eae057a886;0x494678530fa06;0x93654aae54f3b;0x405f21bba6e5f;0xb4a0eacbbd8];[0x1;0xc35c1a946be52;0x6dbd6025058e3;0x5f4576a53912;0x28e48da7e30b9;0xee3b3d0f71bdf;0x1];[0x1;0xda1861499d63c;0x5eadb7d77dd28;0xdaa757bfc67f3;0x11f4e82bd7af6;0x10806058b77b1];[0x0;0xf163335fb8fc0;0x65598ecfb046b;0xa1ede8759015d;0xeae7bc650ec6e;0x84ba1321432a]];
 [[0xd2618b502e6f0;0xcea633ceccf12;0xa7b786a0243f8;0x81b098b4467c2;0x526f2acc9c3d];[0x1;0x6208abc2fc1c0;0x53306b8c5bbb3;0x8bd2c3a270eac;0x2b5aa0e3ec457;0x65e278862c246;0x1];[0x1;0x119597e4f3700;0x1227bdb61df83;0x84f47bb93fc9a;0x98c1ad30fd544;0x15b8940a3ba35];[0x0;0x62a15b5a06090;0xff84559099855;0x6f18e779735a8;0x73aebb8910af;0x9d8cd2ff2e1d2]];
 [[0x7a69f9e8c3744;0xe325ea1939d05;0x3283de48e7ca7;0xbf9363ac05f1d;0x571290ff7924];[0x1;0x2a1c914231478;0x31b392e461de2;0xcc141d8cd0eda;0x59037fff310b9;0x58cb402820be8;0x1];[0x1;0x64b8d6a92ab70;0x760f576312edf;0x1988f56197311;0xbb03e1e682432;0x1f55d8b713103];[0x0;0x1efc8c9475bac;0x250d1284a89a5;0x1e0d7a171b600;0x564014cf84e0a;0xa9e40a460c22f]];
 [[0xff1f580c00ad2;0x6fd74cf5062ca;0xdb89def72aedb;0x56b000da088da;0x27a5638a34da];[0x1;0x238d42e73f308;0x714c532b99870;0x6534b04ac05e0;0xe608c0c8d154d;0xc050e08fbf836;0x1];[0x1;0x8793c8019c31c;0x3223e3fab576f;0x856b055d865f2;0x7487875be55f8;0x2532793b8f946];[0x0;0x4d907d856330;0xd243d2abcd519;0x42e2d3d88bc3e;0xf9ae2250def24;0x42b2f3370b753]];
 [[0x8d425c538687a;0x82fa7843ba4a8;0xf17fe3c20c748;0xdea76b6989049;0x265ad89d892f];[0x1;0x3061fdf584372;0x5ece3be3a6446;0x9473ce891fa56;0xc854f55c6b9c;0xb8df095157414;0x1];[0x1;0x754878ab4823c;0xfb7ee82fe9a0c;0x376d1d410105b;0x52f217c49d72d;0x24d3b989445cd];[0x0;0x172b6b8fe00b2;0x8bc2053ee7a08;0xbac0f79e4fcab;0xd800795821964;0x36b205d9ba296]];
 [[0xdfbfd5b5430c1;0x59750315f4bbf;0xfac91a03a3361;0x8fda22d9cb622;0x20888db72b26];[0x1;0x783455161cdc1;0xab7702536d179;0x1d29cbb0810ad;0x33c85e6b37156;0xc46647413429c;0x1];[0x1;0xaa9412f4a8ad7;0xbeaf9dc9791aa;0x890db17a090ff;0xc36d627d5a211;0x1928742760c3e];[0x0;0x3988b811d3dfb;0x36a8ce6570733;0x2824de4d1f172;0xa5858516a2293;0x2e0681a9d8d38]];
 [[0x3766b1ce7b614;0x69b919f27d7ca;0x1b13dd292b342;0xdca054af61301;0x643f012ec48b];[0x1;0x39f6513a7de0c;0x744df5b4459ca;0xac80065e76bfb;0x633e911769039;0x38947d82a174c;0x1];[0x1;0x30db8894a17f0;0xd18cb25175354;0xedde13efc3967;0xc767b840e2ad8;0x171fbd6c6b1a4];[0x0;0xbb2e4fada13f4;0xa20291b33271d;0xeef2279393e61;0x550d45cf659a5;0xb8eb6937ee5d2]];
 [[0x835f07b3056c1;0x6078f5a322994;0x81f5a0f5c95ba;0x4d3b1a2ac833b;0x7fe9df6555ae];[0x1;0xbcfdf053ba1af;0x6e0e360eefd74;0x43146516730c5;0x23dda409dab15;0x52dbaade69ee;0x1];[0x1;0xa3925fe675ed7;0x45d6a28568ef5;0xbad60060340a;0xbc5187a05e38d;0x1f32266bafd08];[0x0;0xf4ad5690287df;0x29662fa0766b3;0x8c616d349530b;0x27b321d0b785d;0xf63129e09de95]];
 [[0x119e5268d454d;0xf785d3b622112;0x47b64bb267444;0xb2959b897d7cd;0x7b984932bd54];[0x1;0xbc946df87b67d;0x6e0518cbbb9a9;0xd47e192e61cc6;0x613414c36e684;0xdd8572ed56af;0x1];[0x1;0x86507849f44ef;0xf2c0ef44188cd;0xc9bff47ab940f;0xab8026a4baa39;0x1914c30bef206];[0x0;0x703a711920b5d;0xd1891b39ff469;0x9544a1e60885d;0x4fdc7a05303ed;0xf26842ac66d14]]]
 (V [0xcc81eb088894d;0xb6f2b3b12b8e9;0x62a2fb46bafa6;0xba843ace59d79;0x2c40fd6a93bd] [0xbd6b62b771193;0x471dd540f7a04;0xcd0c0087a01cd;0x55ee7a735835e;0x279bb20b73d4]) [[0x1c12422e6f588;0x1e1fd7f2dbc8a;0xd4e320b89c822;0x4cab8a808f6de;0xfcf9f1eded9];[0x1;0xd01b60d02b7b0;0x37d428fd956be;0xfc63d558194b8;0x6ccb5a6eb4ec4;0xf237968b41291;0x1];[0x1;0xd04d1e4acbdc0;0xdbcbdf2d0c6b0;0x494ee5b51f39a;0xaafe0584c9432;0x11fce3bf1ce37];[0x0;0x3e44f9385b2a8;0x3bb5764e10591;0xe74378b315c81;0xd683491e00125;0x1475d6063e88a]]
 [((V [0x95f5b70fbf4f5;0x51d305ffac61c;0x812f799a22f72;0x3c6a1d96c199e;0x76f0bba2a915] [0x14f138790195a;0x2e3b59f27ba05;0x81f19f0e181ac;0xfd8c05bca65b0;0x77104236280a]),[[0xee8ac725d467b;0x3e267f4494f4e;0xd94e576b9d760;0x168ab9d0572b9;0xa58294abdcd];[0x2d51ba5fa76e9;0xb8a23850da69b;0x7906ccffd7c92;0x7f1429e79560e;0x2fa86bdc7c92];[0x1;0xcc1a560201cef;0x5ba5ce101964b;0xa0830b72ac7f5;0x276b850ff9890;0x500408805347];[0x1;0x9fd035f4a276e;0x2fc2a443e364a;0x748250c0c7189;0x9f301d2a10ab9;0x1178ba3b6520a];[0x1;0x2f1169ec5e97f;0x1e59080f88d09;0x66b4b0ff1a9f6;0x5024899affdf4;0x19e0f69c31f62];[0x0;0x68210dd620363;0x25f1b416dda60;0xd44db6f886c6c;0xa5deb599449af;0x11fc3e583030]]);
 ((V [0xec2885d681e60;0xb18ce383537a3;0x837dfc2fd2d4f;0xf9ae146dac83c;0x480ac2997a9e] [0x4eee4089cd89e;0x50c8b2402aac7;0x3238dfdbf78d1;0x39458829e6be7;0x27f130d4b004]),[[0xff054727c25de;0x1c8d25a4feaaa;0x964db513a443a;0x34c27729349bd;0x40d7b2a50137];[0xb68ca4d1b3276;0xb97a84d4f0cd3;0xe77b3259bcecf;0x5157856c7b9d4;0x122a2d1aab5f];[0x0;0xec1a3f569e0e1;0xd37ded2d36eea;0xd9396bb45bdd;0xa9161345052cb;0x4a31447f4608];[0x0;0x6e681bae613d8;0x17435fed55d3c;0xaa9aabb627dc5;0xe291310650de2;0xba47a8cc211];[0x1;0x924c2ab6d40dc;0xa66af9dfd114a;0x48128dec60bef;0xdab63db106fe5;0x24aff559d7cb7];[0x0;0xce3395b04cd44;0xde3b77e1457ac;0xb82b5040401ed;0x5bfa77df1528e;0x7358d25709fdc]]);
 ((V [0x1ff033df8f2c5;0x7af40ed69eb13;0xed68031f1b6a0;0x77dc129b81214;0x57d3371f299a] [0xbbce497136a84;0x7e06ec13acdb0;0x7945901c4e2b2;0x951c0564b1aab;0x4c55d2595edd]),[[0x783296809de3a;0xe89b6366bf202;0x7db2bdeae30a6;0x34c93195e51f4;0x3244feb2617b];[0xc98144f32236c;0xe89f4a8308da6;0xdd79d06c84a74;0x946cd09cf6a95;0x6b80340bb1e5];[0x1;0x96d42686dbc00;0xdeb472cd7bc40;0x8fd7fcbddcf35;0x336548aef6a01;0xae744c432a03];[0x1;0x90568645f6ca8;0xc331dff5e9457;0x525a29723959;0xccb9acbc11968;0x265a1bae79270];[0x1;0x7ccd5ba94ff3c;0xb4f379551068b;0x75c583e3a9ce7;0x16d2d0056b189;0x1bc136c784934];[0x0;0xed19479c90e48;0x8f65936767802;0xe6dbc6e4ed792;0x93b560126ff6a;0x58c23ff388dbe]]);
 ((V [0xc87bc2f994510;0x3b8685bf35bbc;0xf104e56619d0d;0x53e1023ec0bd9;0x1b3028ffae7f] [0x71bc523e5d6d6;0xd0329d8b9bb2f;0x1d7ab9a512546;0xc066213cd1f67;0x78cbf593d6d2]),[[0x6b685189a21ab;0x7601d6bf7b6f2;0x5690c35729b3b;0x4594e457bc9d8;0x39cc93abb26f];[0x84c703dbdcb58;0x8abe7078d9885;0x7f540ad3ea10a;0x53a115ee35ad5;0x72cbbd809e9b];[0x1;0xb683e5b6a8ff;0x545188293db42;0x2eec22441f280;0xb3b8e5aad15b3;0xa954ff8b0e2e];[0x1;0x30d7d97dfe9e8;0x22960613eead0;0x33273ee290dc2;0x85205a7da4a4e;0x26bd5fffbb901];[0x1;0xf8e60768c035f;0x4139486086abe;0x9c6cc4ed31752;0x66649b17c9ce6;0x17b93b3ffbad7];[0x0;0x1e8aa4a4d7c8a;0x19f7ca0fd3b42;0xb93520d14b6b8;0x11e45ddbde685;0x6047cff64b48a]])]
 [[0xf4f59b976bbf;0xba05839632022;0x7493a4d791a9b;0xe9ad714e45f7a;0x72486118897];[0xc09e4605b8a9;0x1cac71cd06dec;0x2521094273c72;0xe47d7f7efeea1;0x4f409acaac9c];[0x1;0xc2ceee245b700;0x9ecadbad9520d;0x54111f3df39bc;0x664f63a854d30;0x98bad22aaeb7];[0x1;0xe1ad38a7eed8c;0xb83e00c9e066;0xe35ee9b5153d4;0x8e2bcc87158c9;0x1ce08621d9ada];[0x1;0x5f874b7e0abd7;0xaa94ebab5ba74;0x6a8a0100123be;0x8d57c4047335d;0xb167642d7b9f];[0x1;0xa52764baf799f;0xfbeb4834f8942;0x1f6da7fbffcbb;0x5a45eb4cc916c;0xf64be51862f1]].
Definition wit_B_64_9 : colwit ipt wit := mk_colwit (V [0xc8041837da617;0x8ff094acc46c7;0x9cff8af472426;0x817f6126f7d4a;0x6590ee1e1e36] [0x6675eeb0d97a8;0xb2d7c47481b99;0x2b3fc5070f909;0x13ad924d063b;0x70c3247d276])
 [[0x519826c0998e8;0x805f52bc74094;0x64f49bc0353e;0x2742e95628a51;0x2f20eba9095f];[0x401d57173950b;0xa20f2424bcc00;0xa2ab642b74db2;0x48e0671a31bf3;0x739bb685931c];[0x1;0x40028699e175c;0x50bfbceee8243;0xe6c63ffe368e3;0x19fc6f0cfbae1;0xdde77a79e7fd];[0x1;0xaa2c083569c50;0xd86c094c89ad4;0xbfe70cbf3a3c2;0xce7455ce4ee6f;0x25d4862ecca90];[0x1;0x14da82065f3c0;0xf03504f92d07d;0x7e412ce830dbd;0xb767fa1de9303;0x143e1393dd8df];[0x0;0xd46c972e009a0;0xa830df920b287;0x6563b03e22693;0x58af264469e5c;0x4fc766cae7c74]]
 [[[0xc046a9a3089c2;0x74524ad068c8a;0x362bb857d06c1;0xdefcc3b7f21cb;0x3ebb2cf0f014];[0x1;0x39ba696b78a84;0x826c596ae8c4f;0x3c7f35bd22f2a;0x7891b18876379;0x7e71c02f9b0e6;0x1];[0x1;0x75a5e2d23925c;0xdc0ee0ab5301d;0xf3091b1fd8cc8;0x1fc21708285e7;0x1dec0af63dfda];[0x0;0xccc536558682e;0x9a7ad9dda4bf5;0x26f8c791c03cd;0xef987154c6008;0x623d152b4678f]];
 [[0x4a2a279f80ce9;0xaa918e950623d;0x79f2fc7c444db;0xdc6aadd25dce7;0x166590036017];[0x1;0x18548c5a72f8c;0xf06f15cbdf3c3;0x1a4634341261f;0xb29fbce5d8345;0xd54eac8201f5c;0x1];[0x1;0x772bb38d071c7;0xaac02f3ce85ce;0x760a0e6f9e8d1;0xb7566f51df688;0x2728c55bec6ff];[0x0;0xa2420cef36cbd;0x42c80faee4f86;0x36721d151cf9a;0xb38d5568f0312;0x1e5c6e06029a2]];
 [[0x3ac4e94778a2d;0x478fdc9d11d01;0xaffc626e8eb8f;0xf649f97e270d0;0x291e05713aea];[0x1;0xc6427e0bc6738;0xeb098589e1cec;0x95cc8c432325c;0xac2fe211b1d9f;0xb96be464558c2;0x1];[0x1;0xd29bed41ec42f;0xd619a748fce9e;0x98045158d55b4;0x29763a5a0c812;0x27822151e570d];[0x0;0xb071821008b15;0x7193595ecb3dc;0xd76804af324f7;0x5707cd0996596;0x42bca6164c23b]];
 [[0x6bed01fb11ce0;0x83162efb65343;0xab8c0972e2f81;0x1af7079c9aa78;0x455e22692137];[0x1;0x3d66a5530ba00;0x18f8a39d45deb;0xd5c1cef4f7db;0xb7b1dd464fbe9;0x73b8903110732;0x1];[0x1;0x47e124b799c00;0x7e04dbbdb8c2d;0x9858c402e5c2b;0x18a0f033e4ea5;0x1fd71e0b165aa];[0x0;0x56760f7f6db40;0xc84738ee95028;0x24fb6adafb4d0;0x4d163727e8e21;0x786da6e22bff1]];
 [[0x7434d80dfbc81;0xffcd56a980307;0x33337974dc7b5;0x4c8239fff17a;0x99332964da5];[0x1;0xe873e4ab11e3b;0x41811fcbf60ef;0xb75f6cf42c1fe;0x55f19d2114bf;0xf26e8645fd809;0x1];[0x1;0x1c91d7a685757;0x8adaa294306f;0xd5af63250901b;0x5e03ae3a42612;0x137890dfcfdce];[0x1;0x3b850b08f4f11;0x507753d861fc0;0x1510ee29cfb3e;0xb9d2ead66b907;0x5b0e15ab98ba]];
 [[0xcefc83224396d;0x306ef3259be2a;0xb85c33e19af26;0x42a4dff6cc74e;0x6dc95667ab39];[0x1;0x2298b8bb89e69;0x155ad8dee2686;0xfb86338e33346;0x4e31ec4affe42;0x1a4ba214101e2;0x1];[0x1;0x1e41aae92e3af;0x73ce9755d35e9;0x7cbc2dc040ee7;0x68125064bfd3e;0xa8ef5b8c2ec3];[0x0;0xd483d88868aa3;0xba198de18c75;0x934c157e06f;0x23d2b8b9790ba;0xcaa0833be2827]];
 [[0xfa6ca401245c5;0xe6c8834c6f74a;0x744860dc73c98;0x5447e7fcf40c0;0x46da8b22547b];[0x1;0x57d694cc87c7b;0xb337329b41a43;0xbc4e0f6b8b3a1;0xa68ff222ccced;0x7401dc09a744a;0x1];[0x1;0x204dd11093aff;0xa55b34ef086e;0xe66f75b778787;0x448f766e125cc;0xe160e6396557];[0x0;0x20dc5188577e7;0xeeca5a714346;0xd6a4b275db9d5;0x6a0ab957c4540;0x7dc7613d46654]];
 [[0x6795111a1fb5a;0x87beba15172a6;0x2af29d6a82494;0x4c2757076c552;0x99971edbe9];[0x1;0xd5cf1776a4702;0xc65165bf42610;0x24e9164eef8cc;0x56f640fa15813;0x2cf8d3dd689b;0x2];[0x1;0x8ebfe0774c4bc;0xe6dc82bd03911;0xd5b20b7b24dc8;0x118a705a66529;0x183101eb910a8];[0x1;0x161c7107ecc3c;0x6a4533b7cecf4;0x7fa84614159f8;0x627e1253a4d91;0x16d0fe7cc7b9f]];
 [[0xe64a23f330f58;0x8a4ca5e284cd4;0x2aefad7312326;0xc6b3aa59481dc;0x5efb7a0f9ea6];[0x1;0x8588170da3da0;0x58a69952caea1;0x24e43e22ed30;0xdf04a7af517de;0x40dea9c3e5d72;0x1];[0x1;0xc1a7c612077c0;0x94c454ded8f93;0x5a9549cbbcfc6;0xf2fbcc3e8f213;0x18bbb087a6214];[0x0;0x1f0eb767dbaf0;0x78e420824d21e;0x63cdcad59025e;0x1d3125680dd20;0xb00ae0f8397ce]];
 [[0xc869c5f721a5e;0x5fab93c827bbf;0xf81d4aae6b91;0x3cc87309cbf41;0x501735684f80];[0x1;0xac4748eb91fda;0xf5fbf1f612bf5;0x7a96f0a19550;0x8e5618fab12c1;0x5f74384910e4f;0x1];[0x1;0x708efa60ac2dc;0x874c35069efa9;0x41088dd08bf57;0x758711c827f73;0x1cdd4bb88651e];[0x0;0x48b3b47f3064c;0xdff179c6c6cb1;0xbf81a898b2b10;0x91d3136cf5955;0x972c6d269b77a]];
 [[0xcd399456c05ac;0x61a82411e9c7e;0x2db7fd807c613;0xc90926a29ea3;0x6171245a5eae];[0x1;0x7794aa370e8b8;0x75a1b63e9ebf;0xa0b723192e2d9;0xde5f922b58797;0x4676d7b761b14;0x1];[0x1;0xb8d148a7a4df0;0x49b54a48f0bc9;0xb0d4e76141f91;0xdda93158b189d;0x20f9e4cb66170];[0x0;0xba36435c48418;0x23145b3a09ee3;0x99861655508c8;0x6a50c458fa9ea;0xb8608254576b0]];
 [[0xa76ecc61da723;0x178f022b20dd3;0x88f7082b30e8e;0xa49156e1d543e;0x44c61903b32f];[0x1;0x901b99665aaeb;0xe9e516bad24ce;0x10cd18bd3ba2e;0xa4e41fef1f2f5;0x7343340c12cd8;0x1];[0x1;0x866602b119e4f;0xdd65d5df7b904;0x66eac3960f069;0xda49472e04198;0x1f46413cf0c03];[0x0;0xf655ffef215d6;0x8e843ec54aaaa;0x35f00ef1eb410;0x92c05d19cd617;0x7306c6df2f8dd]];
 [[0x85aa6d6a0c5e4;0x6873f4931a354;0x2490369287f04;0x7d7d129276b25;0x7c50668ea02];[0x1;0x584629ff5a920;0x78c75b754213c;0x4b9a9d83edf1b;0x4283ad0e9ba48;0xf4bf43e038ecf;0x1];[0x1;0x9feb80ab45a70;0xa85fd9ca186c4;0xe702719ce7e63;0xf25626af88baf;0x17a7d8749ca33];[0x0;0xa38dfb21177d4;0xd845c2a10d4dd;0xaabb9d6243d2e;0x9590e718f9e52;0x15bf503958da]];
 [[0x1f8203a412195;0xc4fcc1e69a74;0xaa38788de9247;0xc6450fa6ea561;0x4049ba8e527c];[0x1;0x102071f79c13c;0x67070adfd655;0x532b3aa611111;0xcfb841617116c;0x86ad11d0f1609;0x1];[0x1;0x268e342f336df;0xa9ca78551d66;0x7e4c1b823e651;0x2ba08e6d2f5e9;0x17d99acb41e36];[0x0;0xf0bbc39e913a0;0xdd52779b5bebc;0xba1b194fe66e8;0x2d46dc60db4ca;0x77137ee738dc3]];
 [[0x611f5ee541b2b;0x8b4e847722d51;0xe75ae3e07f35e;0xb115fb1b93f98;0x656ed5348547];[0x1;0xb4a861cc343ef;0x15b16771a7f9a;0x46b5e7926954b;0x1fd1bb7b391db;0x36e1f5becbd17;0x1];[0x1;0x44e2ac454a5f;0x74f3d9bbd62ac;0x367039f4421ae;0x682b51a58e526;0x1a947643bcdea];[0x0;0xdfb9e55a2d422;0xffc869a42871a;0x3e11138f8cda8;0xe61d02dd2f597;0xc9b9c921c7dec]]]
 (V [0xdd184f4d5c219;0x59494972a0fd4;0xd1999fd1723e4;0x7300b9efda689;0x798d22c30f36] [0x1c47d750d6020;0xa5d5b3adf8965;0x9f80fae10bf9f;0x3286b8bd680a5;0x2ab8b9ee997c]) [[0x790c118339bd5;0xfd671176a49ea;0x9726b4a4af90c;0x894743f9d4b0d;0x17ac670b6248];[0x1;0x5a27168acc809;0xb9284bf8d2fe4;0x145a06f770a84;0x6cf56fdd72b27;0xedc3113c67357;0x1];[0x1;0x8a32e374bd45f;0xdc54ffc8aa12e;0x4effce022cad9;0x87668b13d0655;0x1ad109556c9fc];[0x0;0x974a76d996358;0x87853ae65bdae;0xe8c67acfed0ae;0xaf10c3fc032b1;0x2a119508fb010]]
 [((V [0x2943c5ded303c;0x8e4d4a2568c4b;0xfbbef010b6670;0x6541df269048d;0x1a84fbf8fece] [0xe1084cb04dee2;0x4c89db201a0a8;0x92869b4b407e1;0x9b1f91cac92ae;0x3bd73d29b556]),[[0x70bdd91978ed2;0x92d2acbb38f42;0x2fef9bc63bbc8;0x14096e3354039;0x3fe475d1d945];[0xd96636a1ea737;0xf035107c31ed1;0x3fc4e22e54632;0x1ff8dba9a96b3;0x882d7c2372];[0x0;0x397781f73b799;0x1dc4ee97db59d;0xddf5925123db1;0xfec64e9d6da01;0x725d165f210c];[0x0;0x2edc83e6f2880;0x68881e5348207;0xbe564b241be75;0x1f153910f3ede;0x277546da349c];[0x1;0xf432cbb6b31c;0x7a0793d370e94;0x646ec0c8e3c1d;0x977abcf6632c1;0x1fb5a073f808d];[0x0;0xae3613cf4e4ec;0x948bce5442e4a;0xb6cbed0b22d5d;0x8dfcb0d9c9cfc;0x79ec2e2f23055]]);
 ((V [0x583b6f4226779;0xd1275f402b43b;0xddc157f2c29a4;0x17b2b8b56945a;0x251ec429c8ef] [0xcd4eeed7f5832;0xd748687d6dfbd;0x77e8c3f194867;0xb2a98440ea5c2;0x7b7d402f4103]),[[0x1d2b0149b9fa3;0xfd1732ea7dcb1;0xa7cdb0ac86ed4;0x6a73a5929e151;0x6da0116c2e06];[0x8e97bde9db5eb;0xab29bb1494e0;0xd51bf83a4921e;0x15cb4c1404695;0x11a76fc219fb];[0x1;0xf6db7da9c770;0x6807cc2b2aaf0;0xc6363a93e5ce7;0x5d142d80f993e;0x1dd04efd6ae0];[0x1;0x9940e62ec7e54;0x71d9e7a8802b0;0xe9146577b8817;0xabd4dcc5dd7b9;0x36c5ffe5846];[0x1;0xcdd2ef081f34f;0x29dc2f64d46cc;0x8ffd1158442d2;0xaf6e674277efe;0x566e125fbde2];[0x0;0x734dd23956714;0x8b7c094f0dc2;0x48bf8015da90e;0x6c88499bf8c6d;0xca9e50e1ad6db]]);
 ((V [0x18e4d1faa350b;0xdde9e213d7f36;0x595195f0d4c92;0xec8e57cdca428;0x11dbbf8a64a4] [0x335353c9aeb09;0x7763b82db8c38;0x4b41a6e70d3c9;0x35eda7bb8bcdc;0x75dbeebe1e89]),[[0xa111592862b94;0xa62daf67883f5;0xf7dff1f7f4cee;0xd2698250918c2;0x436b4b081de4];[0x2fc6cb13c0e0c;0x130a126bcdfa0;0x36be6cac93003;0xb035a4549bd12;0x2419080475fb];[0x1;0x69abefea059a7;0x875babbfc3309;0xa0a5a8dc1f699;0xf1a4acee54e9b;0x3d6e3f3ba396];[0x1;0x6460e4696b9b0;0x6e66d5bcdc25d;0xc0e5cce29d37f;0xe4a898f214175;0x56800abb8c47];[0x1;0x977c6588d1bf0;0xc79762cbfae50;0x5117646fb3ca4;0x2d856b75c83c3;0x94afe33fd02d];[0x0;0xe7c7b54e6736c;0x1d372efafa188;0x3c08de461ba06;0x43d07645064f7;0x6d84787ece487]]);
 ((V [0x953e16a47d636;0x597142ced2ca9;0x7c7341400a7c3;0x95b8ca5abf343;0x56c3fdf37ca1] [0x9b4d4b99423df;0xbef7870356370;0xd4abe88420a14;0x768d0deed8c8f;0x56aa1a5c2c64]),[[0x9826cce517f96;0xc42de9dfee53c;0xb60b750cbfde5;0xb2cbad91dbcd6;0x68bee315e3df];[0xc06a36048854f;0x8a2260dfd0734;0x8f57e53164d19;0x56d5b19b4fb31;0x3d3bd0195d9d];[0x1;0xfed346b8c231f;0xb44cdd3e5a4ae;0x453942cf8c199;0xe07e98161a66a;0x77f9c80f6c4e];[0x1;0x6b75800011394;0xe01783d2fc6c9;0xd2dc4b5160bce;0xb8f6373e4f95e;0xae81f586190d];[0x1;0x1d793431fca7c;0x3a83fdf09823a;0xf0445b0d3464b;0x330963f64dad7;0x9f3fac613daf];[0x0;0x7fcda1c08f54;0xc506546b20b90;0x35867e92ec118;0xe57aa0bf8bf48;0xbaf2bbdec1b08]])]
 [[0xa60c66aba5d1b;0xefa8e4cf7da6b;0x165841928a617;0x2c26e3ee05a82;0x4670ed2d3c47];[0xa71a60ee4c330;0x2e6fd1c4597ab;0xc954b957bc843;0x1415e9ae7bc87;0x325b958889e4];[0x1;0xbef14ff8136fc;0x5719114c11f25;0x2a66ed9b22410;0xf2cce1ada283d;0x29e6a1b82a98];[0x1;0xbd5f20ef50466;0x927e2271aa711;0x748510e9373c9;0x30a13ab77b445;0xcec289851ea5];[0x1;0x5e079b9d861bf;0xa89789911fb12;0xf3ce8a47178c;0x17d3c88561599;0x193aabb4ddfda];[0x0;0x7636f2ec461d5;0x2a2a28eab48ff;0xa0603f9bb9e5d;0xf1dc00f3cc6e1;0x7b0a219a4880f]].
Definition wit_B_64_10 : colwit ipt wit := mk_colwit (V [0x1f89c4f930afd;0x405adbafef383;0x93e44b1f8b0b8;0xfcb2fcf5a010a;0x58649a5747a6] [0x3c181ed1bab27;0xea5d6e66100ff;0x759fadc06bc2d;0x30552591cef1c;0x58fa4a912ac6])
 [[0xdb20555489ddd;0xa9ed0a4776138;0xf7ad7d484f7ce;0xfb017a5544d12;0x2b21474ed621];[0x1e526a85cc45e;0xf078618172d4a;0x1d22082faae87;0x94f37bf29edca;0x4e1107c2ebae];[0x1;0x6ad87955959c0;0xfd0e0f3cdfc37;0xf4b899896af7d;0x8d76a02d83288;0x8a5e5cbbb8ca];[0x1;0xa30a50d2de118;0x6b940424657fc;0x5150dbe5df111;0x7f8ee74ef7912;0x18fa05e62b375];[0x1;0x5d773f8112c4f;0x5d85d9926f75b;0xa5947cfa3690d;0x671871a4c356a;0x160fe253306d8];[0x0;0x8739c1d87c144;0x8a4c1505751dd;0x82e65cea6eab4;0x6ca274c42c8bd;0x403841634ce61]]
 [[[0x83c792cd01017;0x6b293bce87097;0xfca61a930da54;0x2f1ab3487eaca;0x3008b8367996];[0x1;0x3319959c55fde;0x5630db8232a72;0x27f058c02c852;0xd8cc8f398fd3b;0xaa5740b16b2d4;0x1];[0x1;0xa93a1fc06cbc7;0x6f4bcb5f85882;0x63fa0249db5fd;0x295ceec4743a4;0x147c9ec2ab25d];[0x0;0xa17262b8d2926;0x969f953e7d559;0x2e3b59ea1c289;0x9d9857c7e38f2;0x4979c8d7f00d7]];
 [[0x9b55928a53929;0x71bab236cbe35;0xe2984ca4e5da;0x11df4d0362878;0x14d984b03136];[0x1;0xbdfbaaf36f191;0x7894893d5ddc6;0x5fd8b44e430b0;0xc24bd69756d4c;0xe280846e546d6;0x1];[0x1;0x570573ceba147;0x94274c2611a35;0xf6238aa5fe3b7;0xb17ff2b6b09f4;0x1addd87ce78f3];[0x0;0x8b2936ae3b3ff;0x26cea14eb6a44;0x4ff9aeb719ed;0x85137e98a08f3;0xf5d64ff69f86]];
 [[0x93a64bdfe240d;0x958234939e05c;0x74d5c6320ea7d;0x154e1b9403060;0x6e22c839832];[0x1;0x2fb5451e8b607;0x14a7f134ac257;0xe20f21cdfc22d;0xd0275350fde8c;0xfef22836f1359;0x1];[0x1;0x3fc164065896f;0x4a89bafe36978;0x715227deea77;0x1d6e34a9b099f;0x256f31bfb4526];[0x1;0x2eef41c948c9a;0x83738c85c4fef;0x60a90545379da;0x8cc4601152591;0x9e8a2cc0bd7b]];
 [[0xe023aac30cdb1;0xa7ba16c86728a;0xc13984a7fb5a1;0x45cb661d37e4d;0x535c262528a3];[0x1;0x6cf1da0df2226;0xfa83a6833dcf5;0x7b8eab2eafd99;0xfe047fd3b4803;0x6673b2f7dd46b;0x1];[0x1;0xcd95ffa5084f7;0xeaedc37588336;0x9ea6653c241f7;0xc20eb39b74a91;0x206d812bbe5dd];[0x0;0x5c337dd19f59f;0x128ed85260ba2;0xe490ca4312383;0x1441d95534cc7;0x9fe33ff8c9d9f]];
 [[0xc44a6a2197beb;0xde22b49fb4855;0x35b5479c3d83c;0x4ccb42567eada;0xddda31a0b7b];[0x1;0x62491c4dcff48;0x7fd9b7a355631;0x3f4381fbec4fc;0x83f6a8b76efd4;0xfabe660bf7475;0x1];[0x1;0x192c9c5d365df;0x6a8f224df139c;0x1ecf8163cb0f5;0x62f6cebc47b94;0x1ddc6b91bb4b4];[0x0;0x4e17f894f67d6;0xc0fa20be9021b;0x4d689168d24a2;0xa26dc8cbb1afa;0x13293ba246077]];
 [[0xffb9ad7a3c633;0x1ac91e89e361f;0x415e05f846236;0x879bf05d87881;0x435834e5ec59];[0x1;0x106f609791435;0xb3ff80f99f8a8;0xe03c1311d38c5;0xdbd9995c8a099;0x89f446151e851;0x1];[0x1;0x89b82054427ef;0x2119936e837fa;0x683311110e2bd;0x81eb96e553827;0x1bd2e9b5a68de];[0x0;0x8a1d6d7cf5241;0xda44d38667b0e;0x31aba44e2e5ef;0xfedaf0b6a9bc9;0x78e5bfc5ddedd]];
 [[0x397bbaa6cb109;0xeed29472061d4;0xd487d0ac26754;0xb934724ca4a95;0x76880750a8ea];[0x1;0xb72706c39a45;0x9cffadecdcd0a;0x13a3faa88690d;0xc3acde1405960;0x1a10fd6f18d4a;0x1];[0x1;0x68525ce3d187;0x2004528f1dc39;0xae10d428dfe1d;0x7aa075cb76440;0x1e0689618d53d];[0x0;0xd57609aeaf0d5;0x5981941b1fc66;0xa7861feb13de3;0xe2a4337aacad9;0xe20a97067072f]];
 [[0xc5df60d50d880;0xbd24172f51783;0xd25098b092b41;0x184dc814b8bba;0x69c2fcdf934c];[0x1;0xf3dc77f036080;0x7943c5fd60d10;0x756c0c0497c77;0xcfc3608e34f81;0x3f7337f80aa01;0x1];[0x1;0x2bd35c73dc000;0x4161e2ca84e12;0x73ebdf8c94cd;0x1f156d2b1ec99;0x1a85f8d568aa6];[0x0;0xd808261a2e180;0x5db7d5f02d2c1;0x7273f34014b69;0xbea5b63994698;0xd9c87ed1f2e5c]];
 [[0x8b8e7fab89868;0x31a66cf363f39;0xd8eeba97652c;0x6514f286b8cb8;0x5d0c892932e5];[0x1;0x704c9b6446b98;0x95d8ebab31b63;0x6e9c174ad0fbf;0x1532d6cadaf8c;0x57ad7e365b657;0x1];[0x1;0xf396c5114dbc0;0x9017f26fc8c87;0x8f948841c9e0c;0x918e45e1a45f0;0x178c1b9bf8524];[0x0;0xd51d919c13638;0x464d05fdc405f;0xf7f68368c16a5;0xd2d65a2e65cae;0xb5aaf0c078ee6]];
 [[0xba26295feea24;0xc849bde2f26e8;0xa110b446c091e;0x2ec5699825be2;0x4d97cb418667];[0x1;0xccc040be2b94;0x6f959eb930ef2;0x6651114be398d;0x3345fdff914b2;0x74d775c18c152;0x1];[0x1;0x77e2b810ae870;0xaf1eb3e8aec2;0xe9c0a56e48f6b;0x47871e555b1e4;0x1be3e0340663c];[0x0;0xc4c3000ba3cb4;0xd0ced64f63fe1;0x8b0303f82138e;0xb414a7e0153be;0x8ed0fc6673587]];
 [[0x971cfdeb9ba5e;0x603d4fae83e0e;0x16ac028200e4a;0x3c19059526ae;0x4e0f46b4c4a5];[0x1;0x56977ebb8932e;0xfa1a1ab0f4a60;0x938d0305fb672;0xf56bd6f7553ce;0x6d500f61dad62;0x1];[0x1;0xed1b11b542dc;0xd6d7680d2a7b1;0xcf75355e4c7cc;0x902b65c35d455;0x1a198a9c103da];[0x0;0xb1cc9001ada88;0x4b49fbffb3e7f;0x848879bc5998b;0x4ff0f6a643e00;0x8ccee8f2112ed]];
 [[0x695e033b2300f;0x9120d0c68ee46;0x7e34d9f88e1e9;0xe1d62af670ca1;0x1ebe468aa27];[0x1;0xe7e9c9a5531a2;0xfd901b69a7d44;0xd215583a88d39;0x6f119db1723b5;0xf73df55183d9;0x2];[0x1;0x2462b11cb2477;0x46dc33d82988b;0x8382eeaa0d6ee;0x6267815c1d5d0;0x1d6382ed96852];[0x1;0xdcdfb2918e68f;0x98933fd8871d7;0x983478efd747e;0x193247923e351;0xc172a2182665]];
 [[0xf286b846019c6;0x154c119bd38b0;0xeebd3db9e4c5;0xb2d299100b9fa;0x2cddb12c73c1];[0x1;0xda07c75997f40;0x70a3848fbaafe;0x51e3d2da82209;0x9412071a58d0;0xb5be9c463634c;0x1];[0x1;0xcfaf240f85f3c;0x710bfab57867f;0x1f9b973637ac3;0xbfe98b915d638;0x1932a9ab77631];[0x0;0x92b00d6860abc;0x56d6bda547767;0x31ca3987a7905;0x16c3a1062d032;0x51ad5f6b799d2]];
 [[0xab06a3d4aef48;0x4a61423a5fcbc;0xad0e8c74009af;0xdf453155097f7;0x78a1e115f03d];[0x1;0x59f32db8aca78;0x6730d367bfcb7;0x3521a00029a8;0x3ee395c039636;0x1d8bf176790b2;0x1];[0x1;0xdf8b36e4bf1c0;0x98d8f6e726b1a;0xb8c5b771ce6ba;0x808e127164ec;0x1510bdf673319];[0x0;0x3dc91b726caf8;0xf7618f585b1d0;0xe5717998de69d;0xd64caa4223062;0xe77c1508df992]];
 [[0x8ee5e28dbe29b;0x7109bf1f15d0e;0x553d6c4823bd0;0xbc3b6831a80ab;0x4192d597e462];[0x1;0xa3f41179457cb;0x7f86792eba31c;0x1efa9a34fecfd;0x238fde1e79f98;0x86ceba225cb69;0x1];[0x1;0xc037cbead10bf;0xb2e1af1778fd6;0x519b8dd8969af;0x36ee10f91c0a9;0x18c8e05b2d8ee];[0x0;0x108c1fd1191d9;0xfc705dcd0a4da;0xaa10faac83a79;0x6db6b9eea6d84;0x7993b572c0abc]]]
 (V [0x4bdde8440b28a;0x8e245f0031bc5;0x571c0f7176874;0x6b92bfe0e7e74;0x493f75cc72d5] [0x22daa06377072;0xd8e4fcea12c01;0x9580e1eda4db5;0x3155ca28c19d;0x6d9c1398a7b0]) [[0x57abf8df0703c;0xa8f667192d454;0xf3efa172eab6d;0x6d574050deb9a;0x65e53dc59d97];[0x1;0xc43629956b870;0x38d5348686b58;0xa329df4c9d723;0x3da1463354771;0x4864f93ebe605;0x1];[0x1;0x3e190ca33c770;0x386ffe4dea94d;0x7856d164f06a3;0xcb4b1324e8cb1;0xf8c9be0406f2];[0x0;0x4cc4cbce46bf0;0x7bb783bae3bc8;0x56d3cf64ec076;0xf8ec8ec7721f4;0xc0fbdcc9d23b1]]
 [((V [0xe3ffcd0b7894a;0x129aa710f0999;0x303774a737777;0xd4197e443cfd2;0x146e663f422b] [0xcca8a7b68a516;0xc62f9a3d4b0a3;0x960cf1bc17169;0x81016fdaa1aad;0x35a16af6344c]),[[0xfdc2a10389de0;0x4ae3f444863c3;0x3362ba25f4aed;0x95505d142af94;0x5319c8470a00];[0x6150558958315;0x529ae64bfc7b4;0xf0a4ebb7db556;0x8057ebc4d16cd;0x7d4a76141358];[0x1;0xdbebbd3dbfffc;0x38535ade11212;0x1c94e9f445185;0x7f69f84382f12;0xd0aa6a54920b];[0x1;0xe5d1e03c8d880;0xc13073bb4c9c8;0xfe2cd29a60fbd;0x1125b2e701a23;0x2616c33156b75];[0x1;0xeb1a86250dc00;0xf0e7118f310b3;0x9e2604349a8b8;0x85f083e8b69fc;0x117e72ec2b996];[0x0;0xfeed0ebe71e0;0x3346e9130c393;0xcf0057e457241;0x7fb424929c386;0x992220799219f]]);
 ((V [0x9558886a68519;0x60176e47c34a7;0x9ef337df3d3d6;0xfad90525ad389;0x1351cc0cb675] [0x75b7ec155c585;0x4b306c55f932c;0xebaea8ab64d2c;0xb97362e7f31cc;0x5f2d62ee2]),[[0xfddaade888f50;0x8e375a13eedaa;0xc8325ca665eb8;0x802006c92c6ec;0x4bbf0b2298ec];[0xdef6a49b45301;0x291ef9dd8ce54;0x6cdf566f7c452;0xff71546039d33;0x7b08877900d3];[0x1;0xec6a68283d0fc;0xce59b98f45f2f;0x86b8281c688d7;0xa08d06176f3d4;0xf2ce2fc62e93];[0x1;0xf08e0df16d840;0x39f6154b8739;0xc9247958c30e7;0x90bf87aa669e7;0x2a2b9ec6d8ca1];[0x1;0x57cbcf3971f00;0xd5e4ee4c8d274;0x89eb183d140a2;0xc281817756801;0x4b8a32e6ae2d];[0x0;0xb2a985799bc20;0xa8b26d6424f03;0xb72d69bd94aaf;0x684121112c3eb;0x958fa1efd6794]]);
 ((V [0x5088ad1638cba;0x4d025660a1019;0x5b33faae95771;0xb4feae75fa9ed;0x2b2b7f54a77c] [0xa25396e3be774;0xe127499eaad4e;0xc18ec726a5c5f;0xdb2a94a0c4b31;0x6edc5439e19c]),[[0xeba7b2a91a34e;0x4c4df0c77147f;0xdf23f3355b6cd;0x6625f77938a46;0xf86bfad239];[0x824f9465a46d7;0x2e3dd421f9aab;0xe419e9700c8a9;0x347cd511654cc;0x46129c27091c];[0x1;0xcc7576150c267;0x3b950dda859f4;0xcfec857def7a8;0xee547826604cd;0x893abb74c6ad];[0x1;0xf68975c203114;0xb798db40c3178;0x9cefa1be2b776;0x572f9c7157756;0x1a46f91d32f65];[0x1;0xd657f22b07f9c;0x18416856d9892;0xa6660fc211b81;0x73ff1e20c56d5;0xa39c4cb961cb];[0x1;0xc3ed58706a430;0xf873d12105daf;0x6d7739cde04a6;0x237a7d886eab5;0xbdececb51b38]]);
 ((V [0x4913344b31da9;0xf97ad15584df2;0xa8241ab4dfd03;0x2471f8113f3d8;0x77f9b7db72e3] [0x5a5c46d622d42;0x3aba1eb985fd4;0x4296b7f1e394f;0xb5fcf8c1d33a8;0xef6f00ce026]),[[0x6af914576359;0x60416accd5cf6;0xea966a7f39c06;0x4fb20f3a40328;0x6ed69c99f4e6];[0xdb056591b6a25;0x4ba0e10c0e16d;0xb42a8f60f101a;0xf5d5abe16a045;0x25d5444e11e4];[0x1;0x708692d2ddd3c;0x681c4c1b25eb8;0x7710a3928a9a3;0x65ee796f86224;0x3d1b404737b7];[0x1;0x5542699a56318;0xce6b120db5685;0x54ffaf0f8a516;0x628e8cf467048;0x2301291391d0];[0x1;0x63ecf75d535e7;0xc046813dc2c23;0x6410df2a53306;0x63ab770326d10;0x13ca7280c846a];[0x0;0xa2f65c3a34e4a;0x934056aa50b7c;0x95575eb404df2;0xe576d6b9327fd;0xd0b81a7f8ffa9]])]
 [[0xbfc112a19bead;0x2fd38274161ed;0x71b510f0a2376;0x110db02124549;0x6ae91c8bc2ba];[0x555423c571328;0x5109fc1b07769;0x84ef9f30172cd;0x7ceb19148a5d5;0x292a10f2a83e];[0x0;0x7a7a4965df7b9;0x40ddeda616428;0x4ae9673e9df37;0x4e648714e3424;0x1e2017251303];[0x1;0xe180a6d6156ac;0x21f15eaaa1be7;0xd93bffc86a6e8;0xbbd3d1d2de2ba;0xddfce66bf877];[0x1;0x444b69030472f;0xc49b881baba88;0x7b47cce0f1894;0x5759240540a9f;0x27a969f9d3cf9];[0x0;0x615c2a2ec9b34;0x7b9d1d3df55c3;0x55d26ec446890;0x642e8edd0a0d9;0xca90a71eed7f3]].
Definition wit_B_64_11 : colwit ipt wit := mk_colwit (V [0x625d4212b45eb;0xb205018077225;0x3a6cedee85a25;0x46c781be55fc8;0x47ce86f703cd] [0xcff4f0f870187;0xd663f00a08f7;0xeeea53cd66cf4;0x5ffbb805926c7;0x22ebe1b7e65b])
 [[0x8b07ea8c39306;0x7c71ff982aa2f;0x73c34bdd839de;0x6a79ed175ad16;0x9ef96305517];[0x49cee459a4750;0x41d7abf550892;0x8a637b63be7e5;0xfa1028eef2306;0x77fe8554a522];[0x1;0x51e11fca3e35c;0xbb6dfe9209855;0xa3b3ffe247e6;0xbe88c41979de8;0x7bb9549e559f];[0x1;0xc8b4ccdd4640c;0x7b2a5a1b620aa;0xabbce1d3d9eb1;0xdcd5beb270fc6;0x2bc23f4c9901b];[0x1;0x1d59c183683c;0x2602a7b2d2390;0xc978d5b42afa3;0x5f78555e3621d;0x276ce9c5d6d2b];[0x0;0x3414a152ccd08;0x991b53b36f82b;0x59fa6db515115;0x5adfc312564e0;0x68a8069a673]]
 [[[0x51e4a392802a5;0x281e7a72a4cd4;0x400cca79d36cb;0x65f9846f73802;0x1400f79415d6];[0x1;0x8e71d6d24e1d2;0xd0b7f9b524241;0xd13c3bca96c2d;0x7591af43086e5;0xdba2a41e0ac35;0x1];[0x1;0xb626d7a9e283f;0x92050f0057262;0xa93ce5f4120d;0x5a88403f43c14;0x199586119f3ad];[0x0;0x1a04a956091a7;0xd0b90fbf8e101;0x3e230e6a4c2d4;0xf818cf801198;0xf9bdaad57489]];
 [[0xbca34f7e3dd67;0x472da5e7917dc;0xd39a34d54731d;0x2928284573d28;0x34ce4ca39f75];[0x1;0xeb309da80c8d0;0x47d60bfd2f57f;0xc2081685244be;0x30f492e52f12a;0x9b2a5f5636dd5;0x1];[0x1;0xe64d02443c767;0x65b44bddb581d;0x4c1bf30943f2d;0xdbd72f126c19e;0xf547f4670762];[0x0;0x59b8b9915fefe;0xff4c586f73b58;0x686265ebfdae8;0xe6ebb08e363e0;0x58dab31a75a2e]];
 [[0x4c96fb3d7425d;0x3b7c49b08383f;0x9e1ad59f7a8c;0x4fb407652a88f;0x5936d3ce37a2];[0x1;0x8fd4fb3353623;0x25636630b1e8f;0x2279e73f57efa;0x5e31ad04815;0x530779ac3b4bd;0x1];[0x1;0x16c7c97179f4f;0x30487b30db5c1;0x942e9f5f96748;0xe282c2b223f4b;0x154daf41584b0];[0x0;0x27b769235a9fd;0xe8db367919182;0xa26d5ca65f5f5;0xae9e82441c087;0x9f999afc9d9dd]];
 [[0xf2103bdd712c;0x1fc390a121357;0x4c4a0c1e97d54;0x10b4bb4a57018;0x761b025f3970];[0x1;0xcff3a3bc62cd4;0xab2192a83bb3e;0xabe436f373a1e;0x92504f9c8e8de;0x129284f38e70d;0x1];[0x1;0xac7782a0079f0;0xd5a1e05788709;0x8f1f3fa5982cf;0x9899f893b0e8d;0x170effdbf7486];[0x0;0x10106fe5f27d0;0x491dcb6bfe7bb;0x776a9b44ac032;0x7b35bc0612eca;0xe22c505aeef80]];
 [[0x26746a10ee318;0x5a2275d2ec7f1;0x739303680b01d;0x60b982b4e285b;0x6af1056b705e];[0x1;0xeb227099c2a60;0x158e764242483;0xc30783e2368b8;0x5c6de9304ae53;0x3637f6f804bb1;0x1];[0x1;0x9759f5834b3c0;0x5af705d884074;0x35d8fa0069b87;0xc78c485ef1f4b;0x16f60082d2c55];[0x0;0xed3ffae600248;0x5161f5db967f8;0x4ea498261718b;0xf95644f2a538d;0xd7ea1d17ca086]];
 [[0xe889ba1fbc76d;0x3c1945436f135;0x4803b34e906e7;0x8cbbfc31da537;0x7efbd7ae1970];[0x1;0x2804c434909da;0xeee1b8a457653;0xcaba5431a365c;0x5b67849a8bb65;0xb299c359360e;0x1];[0x1;0x2e591c8c517af;0x74a1dfdf9bd7b;0x7cef8e9308c8a;0x6f2f753cc2a39;0x1301e8ade9ba1];[0x0;0xa0991354f7155;0xdd661c6c6c122;0x9691a62ebaaa3;0xfac3db6f33856;0xf46228dd06b33]];
 [[0x10b8e88e2155;0xb0d5389d37271;0xd5ecdabfab6;0x3ae881e1edd99;0x2ce0c42d2036];[0x1;0x85f8198161322;0x7f6200d78fac9;0xb878859f05e9b;0x21fb41f995dcf;0xa9b799131a64c;0x1];[0x1;0xbc771f2e5d55f;0xb2aba86bd794;0x1e762023c904e;0x1349fc704acf0;0x142003bde0e01];[0x0;0x582f3d4839b29;0xcae59465d08f4;0x7066ca5de62ae;0xd530925b50669;0x498559115a8f8]];
 [[0xfab501c23c4ee;0xdf3cdd58f589c;0x145b48ba9d3ed;0x51a19c006a29b;0x17a64daf68cc];[0x1;0x810052b753234;0x72f4419279c06;0xd13c11bf7bcc0;0x7e3e540f60592;0xdd060847186db;0x1];[0x1;0x1ebacb69221c;0xb38a5698b0799;0x33a5dac000e6d;0x793392ac0c9fa;0x150e5af07313f];[0x0;0x52b25410e0240;0x439a4d7445941;0x2610999c58e07;0xe274e93902263;0x1e23df329470c]];
 [[0xe9beb4fccf254;0xec43aca8ad433;0x5ebb19a4580d4;0x9f4c3e2847be;0x7a4c22258649];[0x1;0x134a4377bd50c;0x47a22d6d0c4d0;0x2bed8a7ea92e2;0x7875aa49c0838;0xc4b4c91de49f;0x1];[0x1;0x2ca8493698df0;0x888c3942e0c21;0x8bc5d2d2c2299;0xb5093cc463082;0x18077a207d897];[0x0;0x7e83ad1dcb32c;0x3e3a2cd6d9b54;0x35c786a28ca53;0x86b6706e70bb1;0xe462b6fa9c603]];
 [[0x4aad47cdefcc9;0x1ed7258176e6e;0x94be44127303c;0x7f9513ff570fd;0x6ada80ee822d];[0x1;0xc012bdcddbd41;0x8dc8bb8dc907f;0xe2da8c8a6be5c;0x1dcc78d62f69e;0x2f866f2098c8b;0x1];[0x1;0xd828c2ed32207;0x73e2b3c59b6e5;0x5e299f13c1237;0x4aedea17296ee;0x1dba916f4337b];[0x0;0xb8bbfb6b4a5d0;0x7df8d8ddb475;0xce7dd6eea4ca8;0x82e3e944ce344;0xca54fa14d0510]];
 [[0xdd0206d9a8cdf;0x59555ab4bedf4;0xce9c640950a32;0x84206d0d24a04;0x7ba6e8a65d65];[0x1;0xf072e21572f36;0x3fd0cdb6d1678;0x7806d45a80c62;0x996339990220d;0xfb08f3ea750d;0x1];[0x1;0xfee2c87ec5417;0xc322032d6fe03;0xdea082f4be942;0x9b0b99ff18600;0x120258a6d47ea];[0x0;0x1ea3e95a8656b;0x269705cb4813f;0x6f8bd0674143c;0xe907c7099db53;0xf7f6c1ab7a51e]];
 [[0x4ea8a5d7ceea;0x23c653ef8edde;0xbf555b8a0d68a;0x3067d3d08657f;0x5d8c8cc1714d];[0x1;0x48b8ba55da25c;0x6115394d32bbb;0x365c6e1cd66ac;0x3a82f596d2460;0x4d09184f2d8b7;0x1];[0x1;0xd93b86ac7387c;0xc685843c72923;0xef114b5a188ac;0xc8e1806bb1b92;0x16dfda21aed79];[0x0;0xc9813d9fb59c;0x533fd73927bf1;0xb917fc9e53b93;0xc1abe21ce0a6c;0xb5bff942cbd72]];
 [[0x55e1af6196838;0xf15e4a87f4161;0xc9ee521e32e70;0x8e1461033dc1c;0xbd2b0723e62];[0x1;0x6435e94082038;0x715e5f2acd799;0x3e8481c5ca4f1;0x215c5ae99252b;0xf9aab184106f6;0x1];[0x1;0xd1d84c988a9c0;0xc02217cf8e4bd;0x8e4be6bf56d32;0x672a11e1deea2;0x251a30e78adc3];[0x0;0x1e28e776785f0;0x8ac1d43abe3fa;0x900d217f16225;0x29c569a585e3f;0xd2cce0353852]];
 [[0x1b7bec2458824;0xf89b68d4e7706;0xbb4033d1ce6;0x8be2a76505189;0x41e30f150111];[0x1;0x6f32d94998f40;0x813734c698f27;0x7b90c84af6d23;0x473e2e7ffe986;0x84d84c1064394;0x1];[0x1;0x8faeb3ab8f870;0x9f384f02ce2cd;0xacb4734153d8f;0x6c3121d726d02;0x2045d3904c6ac];[0x0;0xdaa2ea2573d9c;0xed459a3596190;0xf99468a661033;0x63c0a826a79b;0x79bdcf26f88e5]];
 [[0xea022d76319f3;0xa354fc574c844;0x99e6227df24b4;0x4c773d2d104b;0x4666b09b0b36];[0x1;0x386b35ca1e266;0xf8a522fbe19c4;0xeec0711a9af45;0xdda818d515beb;0x7e6420caf5e31;0x1];[0x1;0xd3df9c4d7b56f;0xc173d6b0bb622;0xf3522bf100f2b;0x1fd4f29549223;0x223d905654b0b];[0x0;0x73cd531ac5b74;0xd946d83f94535;0x85516db28a520;0xfdc359438dd1;0x85958f4ff937c]]]
 (V [0xac12501a7096f;0xd3b142a88a576;0xc4e98638dc5e7;0xd0067672e16e8;0x527c6628d789] [0xa639bd0ec4f63;0x5615f549200de;0x192939f9fac7c;0xeabf5170c440a;0x26c3b85de805]) [[0x25f760aa8319c;0x351e7e15e4d31;0xe8839702a60dd;0x7644c82aa1ca0;0x55ded036da12];[0x1;0xc9e3cb5c85610;0xfdc190e5c8f95;0xaa9eefd4c1efe;0xbc0e859c0618e;0x69d6ab6b86f00;0x1];[0x1;0xeaf57dbb25670;0xdf04fdc5c59ac;0x5d05e147e7dc8;0x1837a802f5df2;0x25616608f34e7];[0x0;0xa585af200100c;0x55afde7f08012;0x481e0e742cb9d;0xcdcfa05a5935c;0xa8e7044f1fc86]]
 [((V [0x18fad0908be0a;0x7f3db02edff6c;0x44f00c626705f;0x7be073b545bc7;0x65aa348282dc] [0x6ad47b43b110c;0x9b30dbb98f188;0xe20eef5187233;0x5b1b1663fba6f;0x481448762132]),[[0xbfc96507ea878;0xa9ad6b64fc982;0xeadd5bf2c93d5;0xc5fad2cabe6fe;0x4b1707fa51c4];[0x40eb41b47dcaf;0x13bc98c29f9e2;0x990ee2b1b4333;0x807bf67f869c3;0x499ebdb1e4af];[0x1;0xd9568226fd537;0x3ae61e631975f;0x443bf979efb3c;0xaee0d41881c69;0x5e159f99348b];[0x1;0x76c93c3310ab0;0xa5f7ac61429e1;0x31ca4afdfc177;0x58d6610d86a02;0x18c3d22f2083d];[0x1;0x674eb8d979dc0;0x51e4b63591da7;0x3f8a0889a7156;0xf2a88983b544f;0x1e939002a2d98];[0x0;0xa1cb354e75090;0x62c0f70729ead;0x985359f4a87c3;0x592fd1afdaca1;0x8c507bb46d66d]]);
 ((V [0xbbeb744b5fe7b;0x711a2235079f3;0x3675774ca8e04;0xb7c84c57b3501;0x7f3d1cac53fb] [0x7d610db7824d0;0xc95c7312f5b0c;0x8d47ef840864d;0x3f6ccbc58d2e6;0x5debb41a42c]),[[0x69aeb55384b87;0x864b04fcf3e0d;0x4da461e3ed542;0x7c79050d6c94c;0x6656c0a9448b];[0x39e1e4894c937;0xa7ce820646f;0xf79d8593a8703;0xc51d60516ac75;0x93446a12bc7];[0x0;0x57be216799604;0x349abf51d491f;0xc859069082f43;0x9251fc75eb586;0x3e56efef2f2a];[0x0;0x643338d1158e8;0xfbec36a62028c;0x75985fd734c5e;0x9eee8cbaf357d;0x3c085ff2191a];[0x1;0x344111d8bffa7;0xca819adc58f31;0x3f51cd1ab2148;0x47c8aa63c37ff;0x243508d88e8ba];[0x0;0xb3a42772631b8;0x543efab336014;0x786456ac4b1b5;0x472f199bfe749;0xc80d6682ece99]]);
 ((V [0xd3bed66dfbe68;0x4ef920c17c125;0x2ac8e4def4dc7;0xa959c2e8a154e;0x3a579e9c9f2c] [0xb88c8f4c9838c;0x90c346aa741de;0x887171052d2a8;0x1de81e1efc351;0x6437a1f4e5dc]),[[0x2c3aefe60ac7a;0xd782be95370dd;0x8e5f373eaab81;0x386b062757669;0x5b3b84d9818c];[0xa198a92fa63a7;0xd941f6c8e0a35;0x2113b55c2c5b1;0x9ff9369d0e9d2;0x17ea629689b4];[0x0;0x915cc1e936681;0x6d102db70fa1a;0x54321498f3d70;0x996a412c9b3ea;0x4ea69ce63dea];[0x1;0x5f1d25d970fc0;0xd95baa7eabc9b;0xe6b1462035eed;0x61db9182d8549;0x872027c1eefd];[0x1;0x956e5ad4b323c;0x4aac5215cd614;0x1efdbf863554d;0x578d90dd307a6;0x2309cf35847af];[0x0;0x1b53621447bf8;0x7ee63916c501c;0xf1ee3b29f6a19;0xc256f98e94ac5;0xb1f9a9685a195]]);
 ((V [0xbba4c9a0bb481;0xe891807abc3e0;0xaf0c9fa170db5;0x165b4bf709c4;0x78de0d7bcd25] [0x2f67a91ed45bf;0xc677d69723f9c;0xd207b8a9448b5;0x7bcaa85f4d1d7;0x7058827170e3]),[[0x20cedd6d7aee1;0x3c8c7a7263196;0x105f413980b60;0x2dc29d7fb9e9f;0x33543ae57cf4];[0xe93ec3d142281;0x62950d95e52c2;0x56dd8821daaa5;0xfe7da484f8150;0x45725cbd40ae];[0x1;0x71aa0d5fefbc0;0x12155c1812201;0xab9289b58ca63;0xba30b57ec1701;0x704d15c22fa9];[0x1;0xa58e00a0fdc28;0xd3865c2f8964;0xe6380fe3a06be;0x4813df95cd145;0x1504df2220601];[0x1;0xf781603397097;0xcef7b6ac9e175;0xc798d8e1b6083;0x7e907309e132c;0x1c6853f0dcf1c];[0x0;0x9370ab5a866a0;0x3a31127fef717;0x4e924083b1bca;0x967f8e732ab1b;0x4dba8999dbb6a]])]
 [[0xe70e5bdaa5f6b;0x921991289b25c;0xad6bee44c8df7;0x9b617f20154e7;0x6b1b01ac304];[0x1eb0b6803d9d;0xb6c6f95d3c372;0x87e9bc85cebcc;0x2b9e2cebd465f;0x23fd91f77bd2];[0x0;0xaf8ac986d18a9;0x8e7ebec021135;0x23bfcfeb22f59;0x4128420a2dc29;0x2a26b68fefdc];[0x1;0x32efcb2dd02c6;0x996c31babf195;0xd990ef67c5df0;0xc4b4f4283900e;0xcc3135a72198];[0x1;0xf976df6e1f0df;0x67a62040aba91;0x7597ef45f2a0;0xd521f0fb9d7f6;0x2b7aa8f3821b6];[0x1;0xa07dd2070e231;0x83515d1e3d0b5;0x2dd0061f70d90;0x7845f43a7d832;0xd8e8b0f203a8]].
Definition wit_B_64_12 : colwit ipt wit := mk_colwit (V [0x7b3e8f15be8ed;0x24b1c6a718eb5;0x48c4d4bd95c0c;0x8c798bb877dd5;0x4c9227a65572] [0xd456b5489a8bd;0x7c0a38919120a;0x1877ec02edb49;0xf4ff0b8fce4b4;0x32dee994e43e])
 [[0x25df324690427;0x49b23e224c01b;0x283dad6511414;0x8f8f20a031680;0x5bd47006e524];[0x6c4ff95e2bbb4;0xe195e3f9a9d1a;0xdd1df6f693ed3;0xb929f96c005b9;0x746763651a9c];[0x1;0x34d1665780d5f;0x38b570c14d905;0xc79f17f1d28d7;0x8e58d60416914;0x9092b6c517b1];[0x1;0x1fdb71cd73fec;0xb8910617b9426;0x380b754dc12b0;0x93fc56a94b09f;0x220fa2333076d];[0x1;0x48b7d22b04e7;0xefcfdc5717afa;0x31df1da525af9;0x6bd70dc3bd5df;0x2005ad05a3ba2];[0x0;0xe439bacab1a9f;0xa4905c3c79a3b;0x287ac8bcade65;0xfacc28dce953d;0xab0110004f3b2]]
 [[[0xa61454026a53f;0x4121616ae52a7;0x4f0bfbc059774;0xabab37d5e7af6;0x74c92a94b49c];[0x1;0x71ef8c421bc39;0xffe445cb87ca;0xf946205ece4eb;0x38853db6e3ab8;0x19d063a3cf8d6;0x1];[0x1;0xbab5e30d216d7;0x89c72daa045b5;0x3e606a35cb889;0xc7a95ff26410c;0x17b7004cb1314];[0x0;0xfd3b8b16f32ee;0x746200e2af09c;0x30216a2d30554;0x87e998cb5915a;0xe38e09da48ce9]];
 [[0xe83d2a4c61120;0xed99ec5bad81e;0xc3ce8b4597f55;0xedba8ff8c528b;0x655ff37b7586];[0x1;0x85729d0618c0;0xd1ab5ab108c7f;0x234e6109c678e;0x7856ca9e8336;0x41e1e8cc097a9;0x1];[0x1;0x603df520a1c00;0xf4bdf4b09bd7b;0xd42a6cca0bbdf;0xed79508a5dfbf;0x1804e176ee16f];[0x0;0x9191c76a77880;0x7a326b2bdd3be;0x9d7c0e77c68c7;0xc8f877ad7103b;0xc06b5e8f348d4]];
 [[0xb767473a31da4;0x93236833e747b;0x79d6fdc73cfa7;0xa620064b3edf9;0xa873c192204];[0x1;0xbae4cf5c3652c;0x2ad57d72a96ec;0x45b4b7e02bc6e;0x6e52421e65787;0xf46848044a93e;0x1];[0x1;0xf1bdca93acc70;0x5eec46c415403;0xa1d954c31ace2;0x4afc419d49517;0x21220121f368a];[0x0;0xd8f0079018934;0xc36409215f0e;0x12ada52ba24cf;0xe130429198016;0x83c87468829d]];
 [[0xc7f012d69c06f;0x796598f346b4e;0x1ee35c9f9d7dc;0xdce38fe6b41af;0x8b79c22a915];[0x1;0x8ef6fd0db321;0x51940ac3308cf;0xaabf81e431813;0xc69337817e5e1;0x34bcda25c2a2;0x2];[0x1;0xc1b020ab5337;0x6c68f57112120;0x8c7114e3a94dc;0x4d369ac2b8f15;0x1b3895b603b12];[0x0;0xd069069af0ec9;0xa25a5d83193d;0x91b941d1eee6c;0xc654938b418f9;0x95bf1ca0196d]];
 [[0x1e2f7cbc62d22;0xc35490e43a182;0xfd8b55898db8;0xe5638feb88e6f;0x44d11279eb2a];[0x1;0x1526be687b8b2;0x8cfa8954e17cd;0xdb682ba55e2e4;0xc3a064a30bfb8;0x7fcfc18e81747;0x1];[0x1;0x9da22673654dc;0x298ae66111a75;0xf0491dee9014c;0xe19bf86cc2927;0x177cdf0275ccc];[0x0;0xae4e8f3a35b92;0xcd890b41e5d77;0xbba9f397d562c;0x999f701886fb5;0x79abd1fcaf576]];
 [[0xef07b91137df4;0x2516e0df322eb;0x8824e898fbc07;0x6ac38ba9cedca;0x2528d99f909b];[0x1;0x7ec849935f9b4;0xcc3ea8a3765b4;0xdd50bf304b794;0x8646a108f35d6;0xbe54e2d81d4b2;0x1];[0x1;0x722b81c6400f0;0x51d43e1d2ab15;0x5c4cca9f5b601;0xc58dd7f2000b5;0x16e46858288e3];[0x0;0x8c56fd4ebf4c;0x6657f089a49e1;0x3e140f7085fc0;0xb4f57c4aff52f;0x343188b1c1a98]];
 [[0x455954199299c;0x1866c8e21f3ca;0x8ff2c9275d060;0x1fd96768005a9;0x645140aec9dc];[0x1;0x4133b175f63d4;0xeabd37a7bd454;0x11ebb80e4d43c;0x80041b7a61aad;0x3748b089353a7;0x1];[0x1;0x8703113a1670;0xbe68838a3714c;0xb5babf905ccb4;0x23c0632614cbb;0xbe86d12a5e57];[0x0;0xe57fbbf883820;0x44a1517c55f92;0xd2d887060bf46;0x3e109b2aa8882;0xb74d6427dac3c]];
 [[0xc13890be7d90b;0x6e81abd6a5a96;0xdc313eccb82e4;0x41a6b5a472f64;0x3740a3e62675];[0x1;0x83594f3406464;0xca56c43675d89;0x9f29f6f7c8f0;0x60f9c33045537;0x9942282284e51;0x1];[0x1;0x45ad5f9f04b1f;0xb75fdb1111e67;0xbd5c090834ece;0x849b0add2c7d1;0xe25381ca2683];[0x0;0x294ece7aeaa35;0x4aefad608251e;0x164ef85551ebe;0xe1eb1d96573df;0x68240ef1247d3]];
 [[0x9a8368cf66274;0x730389e5f6ccb;0x214e2c52856ac;0x87271d73d492c;0x7b33ba0e14b3];[0x1;0x9ffba91534a58;0x8d8aa661aa71e;0xe27331b00625;0x4d2c419f27d0b;0x14b7f68adf96d;0x1];[0x1;0xdcfe161100cf0;0xfbcb07b645a61;0x26aab307debc6;0xb794c3dd8d1ab;0xd7cc5f91fae5];[0x0;0x7ebe6d033c0cc;0xd4f2d90892cd8;0x3a3eb663be0df;0x570fda3469edf;0xf881db6b21336]];
 [[0x6d0a004c5c6ea;0x8267ba953c60b;0xa7e808191d536;0x62de18c44118;0x392064920921];[0x1;0x336f0e2d0a340;0x101f2e815bb4c;0x62647da75b11f;0x2b9e2162b4d78;0x9de18a98dd4df;0x1];[0x1;0xa31b7cd96d87c;0x70814cce9cb4d;0xdb2cd5e730e14;0xcd5eaf2237e8b;0x1993dd8444ed8];[0x0;0x43b63e8bd1af6;0xe7037f05c21c2;0xe050fafa5dda6;0x89d242a0486d;0x6d75c68ef4ae3]];
 [[0x21b0e2b01219d;0xee1b2cd39ffff;0x51c1b449146ca;0x5a875514aa58c;0x7b208967d39a];[0x1;0x2686202de350a;0xe51d0035901fe;0x94c1b0720c39;0xe73b78231c7d6;0x1234ef3e85ea4;0x1];[0x1;0xd872b8ad566cf;0x6ec11a958afed;0xc3be89cc35486;0xc0c07c7fb4ae5;0x19a6f4940c1fa];[0x0;0xa612ce191e10c;0x713a04d9b17e6;0x3aea2b51fe1d7;0xd319aa436b240;0xf01750c1a00eb]];
 [[0x10ada42b7287f;0xeb4715f64a572;0x4194b9aa02fca;0xd4ca582ab4039;0x3391114a91b1];[0x1;0xeba362f6e68c9;0x8ed4924a39af5;0x7a6908793cc78;0xb72713b272ca5;0xa7c95dac9d3c7;0x1];[0x1;0xa7092ad2cb157;0x328209f3b30b4;0xa2f2cf76a4a5c;0x85e90c764bf1e;0x1de36e29aea39];[0x0;0x8bf8cc20d1e7b;0xcb0979d09772f;0x3d6a6e8233c8c;0x736996b43cca5;0x572850712e48a]];
 [[0x94372cab1dc5d;0x6809fb4a6c679;0x73f9d9c7defb0;0x7a9009607efa4;0x39e99ed56ad4];[0x1;0xab32a7e8c46a7;0xf07050727163a;0x61a608ff82f12;0x1a65e0666c55a;0x8ed53ac7191b6;0x1];[0x1;0xd28df340e1b4f;0xf33a4c873b755;0x92818bfce4e0c;0x592a0ebc5ea65;0xf3c9b84e16f0];[0x0;0x7bd0a61905790;0xda4762f679620;0x7d56521296932;0xe62456021e6c2;0x608d5de953cef]];
 [[0x1f0b1b1683657;0xe51d7e3d1887b;0xea8b3e0dac171;0xeea0de352beea;0x4285154d1f91];[0x1;0x2cddfef45323c;0x1c71300bc3041;0xf14c577323e0e;0xa1ad67ff09e6d;0x81d80f9e811be;0x1];[0x1;0xc19ea19ff3047;0x1d5ff31fc9e2d;0x3da9e23a0f722;0x61ce6205949a8;0xe9dc143afbb8];[0x0;0xe4def7d4ed129;0x51a6326bf4ec3;0x611977d1d1483;0x4a8f5b5cc8224;0x75f9cd8149875]];
 [[0xb79a3ebcb3221;0xcdcdce0f02df2;0x98944a9c53ac6;0xaa257078b6185;0x6770ceceb66f];[0x1;0xb7fde6e2f0286;0x860f92b45b8e8;0x9744d151a4f00;0xf31f551f10124;0x3756b49d5b533;0x1];[0x1;0x55c2eba4b6617;0x8787723de5ce9;0x95c4f14003afd;0x547835a634b86;0x10888a505fa1b];[0x0;0x8db07d062b29d;0x2711838a51c34;0x7c65484bfb2ad;0xcd014b64b38eb;0xc760c421d7619]]]
 (V [0x41aa85dbc8751;0xe878a9d57db11;0xadf6f2cfba3f5;0xed8a9063a55e4;0x3a1159e89f15] [0xb2c490e7e5d87;0xfa13f0df750ac;0xd901211271271;0x8db2e4c8023a9;0x41d9131fcb1]) [[0x326a75dfea280;0x6528415d131d1;0x86bfb26fef633;0x4e28290b1ae1c;0x5c158d2ff104];[0x1;0x1b07fc443e500;0x4b6b0f46a9044;0xcc29d85d95b5f;0x7092aebf00880;0x56899cd7585ae;0x1];[0x1;0xf420b15ffc000;0x4a074a4ff1f45;0xa3b54b2a0bc6d;0xc551ca0e80fa3;0x15aeff1b3f7c0];[0x0;0xeb8c1dfcfe400;0xe58fbf4b0450d;0x4441bbdeace57;0x104dad24442df;0xb6ab8413a06b8]]
 [((V [0x690eebea7aa0f;0xc0ff8be77332a;0x19c3309afdc70;0x1b6f0a74a61ff;0x223b3e65402] [0x121b14c1c8c8a;0x2168fc4c5e548;0x25a6ad16947f0;0x36a966dfd8415;0x146e924da6fa]),[[0x4d8b86bd906bc;0x34963609b4c12;0x1135afb7b36e7;0x882e40c66e420;0x1bfa3a1ce41e];[0x548551101e203;0x1c0a720635349;0xce6a7495fabcc;0x3b768b4a55581;0x720cae637120];[0x1;0xeaebfaa478fb7;0x100017437ad82;0x4b5b450d3b8ad;0x31d87761bd5ef;0xc9c1a0f1f123];[0x1;0x50894162d5678;0xdf460026121e3;0xd5f1eaef21e60;0x48aee0b7ef8cf;0x2aa7f85d7bdb3];[0x1;0xe2996e9691b70;0xa6f3135fd0057;0xc5e16c4a08ff2;0xbf0fcf24d8b92;0xe66f55bfd8e1];[0x0;0x44372632bd74;0xcf5b53763f649;0xa582557c0c666;0xd7b30a2d772ad;0x37662ad4b27ca]]);
 ((V [0x51a99da7368e5;0xebdb28689b36e;0xd1604289f7507;0xeea6a47c67418;0x88804db688b] [0xad1d9cc002e6a;0xb5265af57662b;0x66e7c8fac0d5b;0xaa8f0e954800a;0x73c8dd2fde11]),[[0xf09defe64ddb1;0x9fa5bc7bc9f05;0x902ad363013d3;0x9c1a9710b2f08;0x2eda9f82562f];[0x4ffae9c4f0709;0x6b1b603a5854;0xc248ab9667e08;0x32152b8ce0b88;0x3cb5dec5ebae];[0x1;0x9099829cf877;0xd6f78243a0636;0xc5b1174f6bdaf;0x90bbda9c781ec;0x796295f745ee];[0x1;0xc89f0d467fe0c;0xa7cfa1f0417;0x7067cb1b8de2b;0xb0b87b204d090;0x15d4df3ed0dfa];[0x1;0xf6124110d64f7;0xf1c6523770c01;0x770f36cb17aba;0x2dd50915a4bb0;0x87841425872];[0x0;0x328efb4b2b06b;0xa97d80bebd961;0x52e585d431940;0x6ae6cd75a7c2d;0x4f768b8e8fe82]]);
 ((V [0x91cfce2a18b3c;0x1d5bee743a436;0x37cec57510cf2;0x7f40ee4c28d16;0x36abc35b544f] [0x5329c8fcb6846;0x517db2bc44ca3;0x86e81d3acc2de;0x48af5f642ef44;0x3172da7cd98d]),[[0x90d6a805b5bb0;0xd06db68730a8b;0xf4ae0c4c142a;0xf3e95976f7e84;0x11a4a3b7ff39];[0x16aac507f9734;0xe55925797bc78;0xf9eeffc8dddd6;0x6c3525f630e78;0x4f140c4d9bd7];[0x1;0xda63fa16cc5bf;0x6034fe97eaa83;0x7fdf0ee2c3864;0x299821c43400;0x9d9687757830];[0x1;0xd9edadd2e8c40;0x9b2469646acf;0x3d64bc4000fad;0x42c354065a679;0x1ba8d1429b1fb];[0x1;0xd387ed885ff00;0xcba27306367c;0xa46bbc11eb7b9;0xa94c0cfc52ca6;0x8d090ae3121d];[0x0;0x374ff3e15d060;0x659fdaba00ad;0xb9bc494ed6a45;0x245a278bb42dd;0xf56593418e53]]);
 ((V [0x71c2cc1afb938;0xb4d7a407f58cd;0x1c0fd3238df06;0x686e596ca795d;0xd149a9ae022] [0x1f76edb02d2e3;0xf0d6583f4dfe9;0x5b329b9be2d56;0x7e4c04f94af86;0x6c0f965ab37c]),[[0xab8d7c11622e6;0xa79c9ee4e42fc;0xc437e36f02f36;0x8292236113b45;0x2eb5828707e9];[0x8552e420b5592;0x8a50caca06dc5;0x64be126c39a0e;0xded16e33bc75b;0x29c606c5c309];[0x1;0x3c71860a7df70;0xc95dc37d29fe9;0x51b6eddedf40e;0xdfcfc18f34360;0x3c323a3954c2];[0x1;0x49a04fa8846f8;0xfd16d4dec4ab4;0xdefad849bd4be;0xf4ebcb89c42d3;0xd68d5ded4c96];[0x1;0xc776ab28a41bc;0x85f25497556d0;0x72b64042938d6;0xc11d1b0aa5562;0xe3cccb6e58d5];[0x0;0x55d162af5afe;0x9b0e5410e37f2;0xc4e4988c04997;0x579dc2c6211e9;0x4d98e3e871a4d]])]
 [[0xc61998afb7ad4;0xa4bfe1f2fe03f;0x76dd31c5725f2;0x4e22b66dc5774;0x5ccabbc51169];[0xc10b6f06cf196;0x5d0709fc72602;0xde80d5bff4e44;0xf6c59b3b146fa;0x1f4455b76be];[0x1;0x59abecdab9c0;0xa1502c6cd5c29;0x4e01d09aa7383;0x7edc8342dd69e;0x29257fe6cd3];[0x0;0xe437ab03306b8;0x54e22e3f0f7f8;0x8e1886daa813;0x72eadff614c53;0x90f3163a7081];[0x1;0xaef2065b699f0;0xbea13072ccf3c;0x978bf7e8a0d4d;0x3d1f7eee7183a;0xef58747404d9];[0x0;0x89b0be0834074;0x330294ea90a2e;0x39f0cc2a4b21f;0x8d641e23e01aa;0xa2209ea2878f8]].
Definition wit_B_64_13 : colwit ipt wit := mk_colwit (V [0xadefdd60e363e;0x59468a294e7cf;0xc25b24ded1680;0xfbd4ce5840275;0x3bbbb2a6bed9] [0x40841511fbe1;0x269eb02e10951;0x220ddda5c44d1;0xf7d600444e67e;0x45979b8c8de7])
 [[0xab23098e95d51;0xcd2133055e6e7;0x56fd73bb581d0;0x83f9d65b17da1;0x2e9c82d38160];[0xf36b3d24590b6;0x82e4be8742173;0x97c578fe1fc85;0x7314306ab0cc;0x77c437174486];[0x1;0xe871abc2b6f00;0x7130fce06189d;0x9b216938ef767;0x7509c2ece8ca7;0x713c3fab5c85];[0x1;0x254e5061a120;0xa51b770d913c0;0x68ab8efacd2a3;0xa061ff3435eb9;0x290f447c4057a];[0x1;0x5c4f96afd43b7;0x92449e846fed8;0x8cb3594ef61fd;0x1dff104c70c7f;0x263139a011d06];[0x0;0xe3bf62f3de873;0x47fffa9757ff7;0x16b0b9bfc8690;0xf908900f0545d;0x4e641a4831eb6]]
 [[[0x16fd998c2cb46;0x8891d1cdf591;0x20ec78aa9a668;0xe30ae557761ca;0x139d1043b4f9];[0x1;0xbd1c4f49f8cc6;0x154161a77f3a0;0xc832d2fa8aab5;0xa3d197d1bd261;0xe64fc1d5f907c;0x1];[0x1;0x33e0ee6b0bd3c;0x1ac98a39d1e9b;0x98e44f0589251;0xe9a1d59c81c71;0x1fcaf5499b030];[0x0;0x5d79788692bd2;0x51a0da1759518;0x3ac61da87c6e1;0xb9467fcdcf1b5;0x103dc132a96d7]];
 [[0xb1dd608796139;0x959c043fe8636;0x97255a002ab97;0xa18c5566afe3e;0x10da2236179a];[0x1;0xac6a169221d27;0x7d3e64eb6425a;0x5123a6bca4ce4;0x38ebb7022194b;0xe7d4325b5f770;0x1];[0x1;0x5eaf1666e4627;0xbd30e3c6192d1;0x6ebce7e14e6f2;0x7de5b643ba443;0x11c8f2c0ce333];[0x0;0x2699a2cb5513e;0x64ec0cbd0d4d8;0x2a9082e6f3f03;0x7bfb38845219f;0x7b553d9a80c9]];
 [[0xd112ddc0b8b72;0xce7bf3f790dda;0xb41a9a716194;0xb9048e54b4277;0x20f8b6521e4d];[0x1;0xbee28ba450a84;0x7fe3b3125dc4a;0x480e57d333c53;0xbe67c82487cbb;0xc6a9bc003403b;0x1];[0x1;0xcf1f2f5d2749c;0xb417b1c45c3c2;0xc005df1129bb3;0xccdcd013e1916;0x10886c7e12942];[0x0;0xf084a60d41964;0x9fc673945f2b3;0xdeb5f977097b9;0x20ba7bbfd051d;0x2935db3b4d71f]];
 [[0x18942fc674624;0xead1ebc3bf24a;0x2ce1d1be5b537;0xc792c13bb648d;0x6591f028ec10];[0x1;0x67fcdcd8120e4;0x5777bf467e8e1;0xf2ea76e361209;0xd2f6625729c13;0x3a9aabeb9d737;0x1];[0x1;0x1e9c260560870;0xcd704c87d5d8f;0xb1c7317a2c3e1;0xf4ee75dfb9fc9;0x1846277165c2e];[0x0;0x4d1a34f875988;0xd3e58f1c762f8;0x1a243f04a9dd4;0xc12d87b792f7e;0xb71b571d0c2ef]];
 [[0x31f5a6c45c90e;0x82f0d7de46ef7;0x85320521ab0ec;0x28ec6c801ba81;0x318a7ccea53e];[0x1;0xf161e11572700;0xedf611da251ef;0x45d074b0ce37f;0x41d2e630dad0d;0xa8a6e1bb383fe;0x1];[0x1;0x94e878a5fc69c;0xcb3726afff87a;0xb8ad17a4c3c16;0x3671dd047f35c;0x22e2eaacf3c74];[0x0;0xd3aaf86dd14a2;0x2d3d8b3ca77aa;0xd3d67e661edd5;0x916f5859ef693;0x572e40eee2488]];
 [[0xb7cd497ca2048;0x1bc3e28594955;0xbff13fdb3f4ce;0xf685a382bf8c4;0x1210aa88284];[0x1;0x76c3ad3099050;0x9a0cd24a97acb;0x7997fd2fbd617;0xceb0e6e9f8bc4;0x12a3faf5edcdb;0x2];[0x1;0x474e76602e1c0;0xfcaefac1365da;0x7ec3b135de9d8;0xfc3dba9e8692b;0x209fe412ef541];[0x1;0xa355ed43e89b0;0xa1b9e7448312f;0x8a5f5168a346d;0x483bc17c19140;0x1c29e3c0f1b3]];
 [[0x4b5a100e5f54f;0xadcb6ed2e54ec;0xcae8dd616764a;0xd22e49308f65e;0x46b46f7ea462];[0x1;0x790db0ffe89ef;0xa73829f9adff1;0x8f6821c362999;0xb81af26c1c194;0x8765af1f51674;0x1];[0x1;0x5d76e6c361af7;0x8bce035b70ffd;0x4fea8255b9e0;0x27ef68c268b34;0x1a82d5bc852cc];[0x0;0x3f191b392fd61;0x5a237bafda563;0x70448e535aa60;0xd2e777583cd7d;0x8f182d5301155]];
 [[0xda8b1c5b10eb6;0xd0142ce3c7254;0x9563f067c9342;0x5b559a6ffdb27;0x230ff227ee38];[0x1;0x8f747cad9d042;0xab383707aef13;0x16daa2fe9a402;0x21e741d7bf8f2;0xce863c2bfe8a0;0x1];[0x1;0x43198beb6b0fc;0x3d5819a04dbde;0xd3f9ce7dd0d71;0xb0975d8e40cb7;0x1c4cb4189b05c];[0x0;0xd063946dfe120;0x8533a31dcef5a;0xd4e23e189d36b;0xb663da6725c13;0x401aa1bcdb7dd]];
 [[0x93dd0e51228f9;0xa4eee8fa85e46;0x2a02ad8cd1457;0x814bd07f0ed4d;0x7b5a58490407];[0x1;0x568d18164bb84;0x51993d777b12f;0x8635c84eb6dee;0x9bfbc7b32c88b;0x15da234f202ca;0x1];[0x1;0xb4e2166daf6a7;0xaa6e730f21b7d;0xa3fcd2af56de7;0x765ea59f8f924;0x14e149076e759];[0x0;0x46d7f3f6f3983;0x71c1087873052;0x7f0790a88d3f1;0x44a4121bdc438;0xec38e028d3cdf]];
 [[0x7a43e4e4d6175;0x95bea65eb4476;0x6add0d6d4e7ef;0xfadce1e20d377;0x2e92e3714f8];[0x1;0xd91cd42f70172;0xca4fbacea220e;0xa414e1933ea77;0x594d5355e8b53;0x6511c13a7a37;0x2];[0x1;0xab9b8716daa1f;0x1bc067e72bb5f;0xf6836d1f59219;0x65ada7b90111e;0x1793e48f5d418];[0x1;0x48ad0337a715d;0xfa56455dd72d4;0xcd5ffae4eaa60;0xacfb3f954dfb4;0xc53a5fc3ef42]];
 [[0x83f8180d46314;0xcdc458d3973dc;0x781d69fa89df7;0x49c9f278f7a6;0xcefcc809847];[0x1;0x4c5774dcec490;0x8418c54189a6c;0xdf1ad9bbfef23;0x56b9e0d3f0c85;0xf7f6fa78170ca;0x1];[0x1;0x850456c2ccff0;0xf07504e96d7f6;0x308a13f4e08e3;0x9ab86f94d4ddc;0x1b9d85d191a3c];[0x0;0xbe03b61d9305c;0xacfd0c107f8c5;0x76a0bee5e94d4;0xbb7f397302006;0x54f0c5c87940]];
 [[0x556db41e490da;0x8df4024fd5459;0xa7ea528980e47;0x36ece05c8ad84;0x2c8e20875d2b];[0x1;0x53d04d1181204;0x9527663487836;0x8496939fe8929;0x81411ae7d313a;0xaf097a4d7b2ae;0x1];[0x1;0x852396c1cb6bc;0x1474c56357009;0xf2c7d79de778b;0x8fcb564f061fc;0x17ae7830f0dcd];[0x0;0x326cc78eca7f8;0xa45e4b070748a;0x51c2deeba37b9;0xf8b9caf4a0ef0;0x44a2db00026e1]];
 [[0x8f4e6e1705a71;0xd2a5062a82b85;0x270863951d417;0x6723b6972fca;0x184195702cb7];[0x1;0xc0dc8735bbf0f;0x84ec6e33bc0c3;0x2f865dd0f173d;0xb20096b2c858e;0xdbec7cf0b72b0;0x1];[0x1;0xcbec7ee62d777;0xb068b59ba2a67;0x6e38c84b85e69;0x3150570e999f6;0xa6b1cbeafc30];[0x0;0x947e2e785f7d0;0x3fba4d4dbb38d;0x6a48abda60ddb;0x1f3ed4b3a60a0;0x225d1876fe8cb]];
 [[0x1183a5256acf9;0xcb5705db74741;0x9b61e1f3b9232;0x17b4cf5047b1;0x45de68602d7];[0x1;0xa361cd3801e50;0xc21ebc765543e;0x58ed713cc507c;0xe9328b9c7bf2b;0x9fd35f65aea1;0x2];[0x1;0x3e7560c86eea7;0x1d286799a8ca1;0xe868a0cdc5fc;0x1056d1b640970;0x17134f3d52209];[0x1;0xc4d6eec247f17;0x50462424a494a;0x33f0c4f5f39aa;0x33dd0bfc588e1;0x87ec6498d5aa]];
 [[0xf77b20e93adf9;0x7c468262a9d33;0xa0aeffd16f9ce;0xc34c1e7fc97f9;0x325e36f88b31];[0x1;0x1753596666980;0x6be90da0413b2;0x7dfc069a1010a;0x90ff9904e775a;0xa6aa4a5ca232b;0x1];[0x1;0x57b9a09a52ca7;0xd0e06bbdf53bf;0x9a11f9c7d02ef;0x384a9a4a458d8;0x24097e2298e04];[0x0;0xd41b19c54ffa4;0xe138d070e4ea2;0x16d7991a578b1;0x24bc421a67e50;0x4c88d4cb3bb3c]]]
 (V [0x29a6d06784041;0xe807f0b0e7698;0x6a446e45a78da;0xaa864acc61194;0x6467cc0cc787] [0x6ef4951af51ce;0x76b7f56acb92a;0xec2fc5d97e0f2;0x1a4ed64eac27;0x3617feacb0da]) [[0xbcf12927808b4;0x9f0b3f18b7deb;0x5cbedd649dfa;0x11e926b179ecf;0x4f995d355909];[0x1;0x75fcc2aa5da7c;0x75a17ed8e7c0c;0x7d7150321664f;0x77ca942b3412c;0x663995d736159;0x1];[0x1;0xd7b52099142f0;0xcc0e9a1dbc5df;0x235c77d570809;0xd677912c27b36;0x27fb72b20ff79];[0x0;0x5ebb831134550;0xa7bd6a8d05893;0xfeafb0d02788b;0x486d2c5031ab7;0x8e44c08b41ce3]]
 [((V [0x6ec5ff541dfe7;0x860a878a36dd4;0xe5159b2c328e0;0xf203526d54d66;0x16327b71d531] [0x5c5f3c1bf534d;0x83dc2d1412376;0x777a06184246f;0x5deab00994f34;0x643b4d979573]),[[0xd68750450009e;0x8fec16f002d5;0xddf316ba53827;0xc0238f315b319;0x5e3c31b82090];[0xaaa4c24872901;0x2f868696e2612;0xfb81aef396328;0x48f83e2696c65;0x7d087f0c52ab];[0x1;0xe6fb4859193d7;0x8327a29d7f604;0x98888339a9ede;0xbbe12749074b5;0xab4e7b1903b8];[0x1;0xffbde44dece78;0x3af4844d6cf05;0xcb0bcb602fd09;0xf768ea6e287ee;0x29e8cdbb78ade];[0x1;0x1205827e703dc;0x48880dd15c0dd;0x9123d82bdc56c;0x6a6af8d8ce3ae;0x178a3a1c1a8bf];[0x0;0x2b36ec134d3ca;0xf62ccb524d9b3;0x6b31034b565ab;0x862d3005977f6;0xb2aafbec4220b]]);
 ((V [0x2c97fed0ccc39;0x30a4211489c7b;0x66bf37577d19a;0xa632d2cc9ab26;0x355b89d1f5d9] [0x12ee1e9e2f00f;0xf724b9f8144a8;0x25b6da9963705;0x78f5ef0ad601a;0x43f39f231328]),[[0x40ffc0a83f926;0x3df5c26d10a91;0x81ee4f63b536a;0x5bac7cd5a202f;0x18a884aa37c7];[0xe2a8abd00f7a;0x686bb09311ba8;0x6e11ba64b5d09;0x540ffaff21726;0x5578e2df9a92];[0x1;0xf2f9be7bd8c67;0xea5f37b979fd3;0x5c6a077d9a32c;0xc2f1f2aa4b190;0xa71857672bdf];[0x1;0xa39d9f68e46c4;0xe2346d0908bd5;0xdb5db4c13c534;0x78c86eca3476b;0x1da3728b43490];[0x1;0x3bea0a3d8febc;0x33aa018be01cf;0x26605afccaaaf;0xf15a2cc8ee486;0xbec0f1cea33d];[0x0;0xf3413e53086da;0x99a88018ffaec;0x93afd01829d18;0x6fea4d2822a11;0x1d75a879b3442]]);
 ((V [0xd6dae234d3c65;0xf306050b0eb13;0xeef81fecd85c7;0xe7775ac1e2f7f;0x177d8a24a8bf] [0xafb6fc17dedde;0x88228097146eb;0x7d61064607cc1;0x70c938ee0fcfa;0x5e2632f66846]),[[0xb4b10e960505d;0x23e723c8e9064;0x3ae922db27582;0xef3ab3e9e97e4;0x4cf913ddadf0];[0x69ab44e80c8a0;0x1aee001ca4e14;0x8c1b976b3181f;0x20d8a3b86e781;0x30f70aa02c46];[0x1;0x3944b76e2b027;0xb3ffe95986fcc;0x4a3751c35090e;0xa7ea45df86613;0x4bb005a7ee05];[0x1;0xe628b70b5c42a;0x944da1ad435da;0x38091b966eb24;0xe36b548ed0500;0xd4107dd88d3f];[0x1;0x7713213b6934f;0xb0b539c63acae;0x95021d47d2310;0x3eb2734de116f;0xd61f8f4a9cca];[0x0;0x4a9ed545dfaa1;0x88af2a57e812b;0xb84682f819a0c;0xb6b1ff0c27c26;0x8b9ddd9ad67ed]]);
 ((V [0x18dd2cbe0178e;0x7f29243794861;0x42a59bc080822;0x67d692c923094;0x76c460703bb8] [0xc313b22f53a28;0xd1aa6887f1744;0x7cf2ca10567d6;0x69dfd7fb4fe4c;0x63c6c4cf9732]),[[0x25b1465beb463;0x9f3ceca60e2dd;0xae7563879f8a6;0xdddd2d579469a;0x3cc41c6f0705];[0xc4caa51d88442;0xe44991d1784bf;0xcb02aecf7198d;0x268885a055818;0x69585caf4059];[0x1;0x4a0012e842abf;0xfe90a471efd0d;0x5ece4d976429d;0xa8b47c014c9dd;0xce612098ef5c];[0x1;0x62e1a868c8c2c;0xd8e61e7092236;0xc2ac4bc816c04;0x85d133626c5ed;0x21eaddd8462d4];[0x1;0x462397b3f42cf;0xf5e7385cbf60e;0x49e764871faa8;0x7833011ca69ef;0x12ea5e253e984];[0x0;0x1f9539c917f30;0x795e2c9ab234f;0x9b7605ee83ade;0xc02e41c82353f;0x624328cae34a9]])]
 [[0x51001d98b96fc;0xeb62692841163;0x7b1931564db62;0x1c6c1d58cbe0c;0x1ddcd0ce8041];[0xa5b35c6553a9;0x67d69b9667199;0x8c675777f9a91;0xde88fa3f9d77d;0x579590003afc];[0x1;0xa57ef4aa9809c;0x8b1bc46a9cfe;0xe7eb2d23d174c;0x1ce31a663d480;0x40f7e0e9e77e];[0x1;0xfd5068a813340;0xf18e1e111b80a;0x331d8f942164c;0x6e8f674b468ad;0x1def30e06d873];[0x1;0xbd5671c4bfd70;0x4717087f818dc;0xb65a9acdc7263;0xcbdd05bea631c;0x299a051c97cc3];[0x0;0x6004a5b95b738;0x2482393d335a3;0x960643c46b1d;0x5d3c1a322e15f;0x2cab2caf1a620]].
Definition wit_B_64_14 : colwit ipt wit := mk_colwit (V [0xa820dc3c5b8fe;0x25e606c0e603d;0x7b8b7dfb76f95;0x9d32bd0042c6;0x9ccb344e02d] [0x5f518c76ce854;0x8438eb6dd1656;0xd9747a862b2b8;0x2e1909faaf724;0x4cd657d2d62f])
 [[0x8a2b4654aef20;0x96c1659b8a9d3;0x82768bdb2090b;0xd0c5da7e37866;0x57a5715ed27d];[0x8bd24b1f79327;0x630d0c417666e;0x94ebb8cf649a3;0x7d87391cbfc98;0x2c6858cd8944];[0x1;0x7c5afa986f7bf;0xc01769ea14789;0x9afc2c9601909;0x8f28bc52de008;0xc9ca9df3c0b];[0x1;0xd4e495024f240;0xef9e1384edcf6;0xe4fb6cb7423a6;0x88760a01415ee;0xd67cd30e3130];[0x1;0x3407531e69c00;0xf6c2067eb8f67;0xe4d5aa327fbaf;0xa3f330f8b8660;0x162a261c0a248];[0x0;0x7f395d7a3d400;0xf1c6108a49358;0x2f43dbad697df;0xad113cc20c845;0xaa3b013274d81]]
 [[[0xa73dff57c2cc1;0x6e98e15b4b792;0x36cafcddf04ab;0xd2466011527ef;0x7e59fca69094];[0x1;0xa87f4c78af9de;0x22bb86c872842;0x73d6760769aac;0xe1ac4361dd4af;0x15c02eb8a66ec;0x1];[0x1;0xeee6f479dd2d7;0x384fb4490081a;0x11c05d63f4d87;0x2933da5e46d39;0xc1c8382ef8be];[0x0;0xd470794c5415d;0xee1c315a9aded;0x6a877c1de6029;0x6159399dbe402;0x1ecfee52eab;0x1]];
 [[0xd747d392b6c24;0x87fdaaae2c50e;0x6fea153a96f34;0x5be56fadd8119;0x1a6cdf9327ca];[0x1;0xd79c2640fc3c8;0xeebd5103f0063;0xcdf914ee7c46;0xa96cfcefa663d;0xe0ed60c81c44b;0x1];[0x1;0xccdb4890bd870;0xe61b194b955be;0xe104a86c1d4d4;0x3dfb6fde7a595;0x143406c273e8a];[0x0;0x457960bd9c67c;0x756be331f189d;0xa38d841b92c36;0xd37d076150f90;0x3174a6063bd87]];
 [[0x1953274272130;0xe4794383d8a9e;0x7333d9d2a704d;0xdfd39814bd577;0x2a351c880f20];[0x1;0xd2272d5cb9940;0x48dde360029be;0x2baa1d95a7287;0x79a7b148fe84b;0xc2d53029f0b75;0x1];[0x1;0xc51bc4de6af00;0xd7446c95044e5;0x1c628801c7f53;0xe00805ae4af1b;0x17b4b9ae4367f];[0x0;0xd6a88f42158b0;0xd26ced0b10ca4;0x140b3836211fd;0x2553ace2da823;0x4edd03c107096]];
 [[0x264e5dd1a3b91;0x849b025524f05;0x25cc7b5f1223;0x769a93bf79b90;0x3e9455eba6d1];[0x1;0xe20e60afb2c54;0x727c2ba4856c6;0xa5ce418bfb9cb;0x84c5bd2da89e7;0x93ce757e4bec4;0x1];[0x1;0x7c894aec11b37;0xb5c29133d07fa;0x2496e3055126d;0xca5c62a28f6f6;0x19129a7e4a007];[0x0;0x69750e951ca12;0x5e9e54fc150e4;0xec8f0408e9649;0x538b2bcf1ccd4;0x68e695ab4c8ef]];
 [[0x16c7cbcc58857;0xecee0bc5777e8;0x43bd452b0760c;0x5ea0c7656a91f;0x42d9f0f1eec0];[0x1;0xb10aadf775dc5;0x6ad2e56f7cb82;0x1805cf9953f6;0xd260ee77d82f9;0x8371f662591e2;0x1];[0x1;0xca7799d2e1447;0xafefc865b2fbd;0xf2d329c3212fe;0x7ad2ef5b73816;0x19c28518ede98];[0x0;0x997820d1d1064;0xe62be6121a46d;0xf459c7edbccef;0xa624c9c7a26cb;0x71a745936dced]];
 [[0xc609c5b46bffe;0x2a361a6b78313;0xc9333001a8692;0xa5b21ece9a1d9;0x1fb4380dc46d];[0x1;0x880d5c81bb5b0;0x4ce9531d6bc6a;0x62758560ceef0;0x4265fd6be9a7c;0xd0279dc281a03;0x1];[0x1;0x250d1c0a4e15c;0x196a6fadc6a10;0x421ea8a5a0eab;0xd44113b4efe79;0x153eb167d0bc2];[0x0;0x853521e9f273a;0x87113b9a316e9;0x4865c146cb0d6;0x9e31e53293163;0x36bdae4ef7774]];
 [[0x274f5e1c74cd1;0x4f983c95dd4c4;0x14518fb201aa;0x140bae2035181;0x2874f5c6a8af];[0x1;0x4f2245cc51bc6;0x86798f3a20664;0x7ff3284863e5d;0xf9877d981bebb;0xc5d1763a7db4a;0x1];[0x1;0x5d60ebf279cb7;0x97a40962a2ba8;0x9f581a589ddbc;0x857e204c47608;0x164ec5a91954d];[0x0;0x4391629b9eba;0xd9d64c217dee5;0x1bf3266fd74e2;0xefa27ebdb664d;0x42e46404f947a]];
 [[0xabe581fe0acd6;0xe94f67c1ce0e5;0x8d48f95d832e6;0x47500f4f9baab;0x200870188b60];[0x1;0x34763f889c11e;0xa9f8720b56e27;0x89c451e61c374;0xe53e964fe762;0xca9436aea8829;0x1];[0x1;0xd2a6a5b119b7c;0x60604479b5a03;0x2958fb5aeb9c8;0x8d57511279048;0x1236fe397ef85];[0x0;0xb3f756045a888;0xdb63d80d20bc5;0xec7f0d792c4b2;0xed0bdb4536196;0x2df2173f3157f]];
 [[0x84bd781b751f9;0x8058d3739bce;0x1f8089458889c;0x46ac82ab60d4;0x569e43f27b92];[0x1;0x4349442d12fb2;0xba5616464aaca;0xd7b0ea42558d5;0xbe437ed30cac4;0x6171c44c81973;0x1];[0x1;0x2e35b09d2e4a7;0xe05c305ce31ba;0x96bc18efdc1c7;0xbab3ccb9a9655;0x79e1b2e7ce49];[0x0;0x54127d69a4c34;0x6e5c90921f746;0x98e9ee1545eae;0x6b84d619411b7;0xa9f3a07805a11]];
 [[0xcd865fb224220;0x78cfc92a19b85;0x521cd1c384add;0x26fde4bab7905;0x30c90ada8cc5];[0x1;0xe9180cf33bfe0;0xadb70e0eb67f5;0x119532991fc11;0x5f26c6d765d12;0xb3ee86385cafc;0x1];[0x1;0x6e4959758dc00;0xf8cad656181ab;0xc7dd9300afd9e;0xc0bd45d073de7;0x7d711d92be21];[0x0;0x5979e3647d180;0x925ffbb038951;0xeaac30127e9f;0x6d1eb256dcd28;0x552e7d986b461]];
 [[0xe188186d775f;0x987bbc2727975;0x381102932c090;0x83fbb46eba1a6;0x77ccb5d6bf00];[0x1;0x6f62993ed2c1c;0x5329fe41085b2;0x8e290a4fb96e5;0xbdcdbe2223b6e;0x14fba36a0ab82;0x1];[0x1;0x1a272c5eb5117;0x3fc1a1b5ffe21;0x398bfa9c93138;0x65284b164833;0x47e788d0da0b];[0x0;0xac731154735ce;0x84a983a9d5ca0;0xe6b33a9fccea2;0xbaad3a89acb61;0xe055f54159c1e]];
 [[0x5ea624201339b;0x18ed95da1c793;0x7746c4fb8b6cc;0x2679b9d0805b1;0x5b375274979f];[0x1;0x2a8e8b3842801;0x69fa3c16d6bb8;0xdf2c8a7eef778;0x6ea780ee7e6bb;0x59a49e1c01888;0x1];[0x1;0xc54fa1a678abf;0x3f8438a82a43b;0xea2b245bbe833;0x392ad4c3a78dc;0xd99b9771c24e];[0x0;0xff14b7d021524;0xbaf12f74793a8;0x3603102727cb0;0xb8d24f2695f0c;0xa605e98b25b2e]];
 [[0xb9249a83095df;0xb9845338917b7;0xdd9c508d408d0;0x3f7b232eedde7;0x43f9ce028666];[0x1;0xab1f800c727f8;0x1a4dc8361078b;0x7e5a23acf55e;0x7c994dac0450b;0x7fc1c4de1d8ea;0x1];[0x1;0x418f43e4b7617;0x222a1a1994a67;0xf67a31cec0440;0xca0266d4922fa;0xfd24c9fe2046];[0x0;0xe80b29f6a3186;0xb5b5dab158e43;0x129b2260d37e5;0xe56b404a52b00;0x77a791522c060]];
 [[0x19473f776dd44;0xeece4802f4249;0xcd5ad9553bcd4;0x154ab3cf50b9a;0x597298aa49fa];[0x1;0xde22d5b755e7c;0x418564f32cc01;0xd963f19af52b6;0xe3ba82a186eee;0x5e7ecaf8b06fb;0x1];[0x1;0xaae79fc82fb70;0x51d9edcb60fd1;0xd250f06d55b0e;0xbde4991e6f8b;0x6144c26a72c2];[0x0;0x54bd072027020;0xa8280f06173fe;0x7db31e7c2005b;0xb64ad2bdf57e1;0xab8d3edefa6d2]];
 [[0xf242d80baa72f;0xd6e9442f35eda;0x55768f30e75b1;0xaf684f181811b;0x113e86a05fde];[0x1;0xae8eef1f9d6f8;0x4c7d28059935e;0x919b12ec36cac;0x5ab0eea893dc1;0xeb76207f2e819;0x1];[0x1;0xe1e8c0ac444b7;0x577a6884a6a88;0x2756e056b1701;0x433c59ee76a80;0xea6b1b27b88e];[0x0;0x55ad4700731dd;0x182180cee6a76;0x9e663d62d1628;0x1f85e7340425b;0x93f48b044a7a]]]
 (V [0xd1f9234a2d431;0x1bb315eb1ed1a;0xa10b6d075dcb0;0xb5d88be0ac12;0x3f224b55e2bd] [0x2e265231a20ef;0x7aca26ffcde4e;0xe2b1a61966fa2;0x45ae3ea216ce0;0x478b4b277de7]) [[0x23f36f8bf5300;0x2e5428242ab6c;0x1cf80ebba5678;0xcf000ccdad6fd;0x75fcfdbd8e6c];[0x1;0xafdfb1d5d9500;0x7e8e9264c9bba;0x8372f3d2c095f;0x55780e85d5a2e;0x12bcbc382cc0f;0x1];[0x1;0x537c8732f0000;0x9c930f1a672d0;0xdb5b0e7b93c54;0xfe5d149c6fea1;0x1a6cf662a14a2];[0x0;0x3378f52c4b700;0x338d3f8b80e9;0xd2db8b843caf;0xba3a976137b79;0xddce4b43754ad]]
 [((V [0x733f4e16c492;0xa344b778b9981;0xa333484fb2213;0xc20ba5511fabd;0x71688cac1a5a] [0xf46daed62b7c;0x4257b62ddcb27;0x1e1e9dc4163c2;0xa72bb25d38135;0x738db14c26b]),[[0xddddc58df57e4;0x710fe87cccd3a;0xc8e7c545b6607;0x4f6182c5cb;0x2922c0be0eac];[0xce3a5389d311e;0xf536b5247b965;0x3a459fd95156d;0xf32dff4cd0467;0x55e1fb4d694a];[0x1;0xaf0f61abd3ff7;0x7c0baaa644160;0xe28024193e6e6;0x7b67a4448d32d;0x8ca02b42156c];[0x1;0xceebe9840ab88;0x184554bc3d957;0x7d127b881a8ac;0x51cf95fe15c9b;0x1d54fce34e6ba];[0x1;0x8293227edca70;0x19ffc5d1d8d91;0x2953d1bbd3931;0x6ff2acf2b8f52;0x1d221f9c67710];[0x0;0x385587823c160;0xa782f5eb83765;0x1b99a8ba8891e;0x4f913ecd86590;0x49fca64bc62c1]]);
 ((V [0x41f62db8bd872;0x3e8790bffdc66;0x603329b6bb22d;0xf6190ebbd92c9;0x1658de054718] [0x4deafcac4d248;0x3e6c38b43640c;0x3ad9ca3dae2ca;0x4cefb702d269f;0x791b129de7cf]),[[0x2abdd4a83c05a;0x28f7a42bf2baa;0x4c059d8b0e5d1;0x145a8397a21dc;0x6ea7cbc5fd43];[0x76ae80bd0cd1e;0xdf6a3ee8159a9;0x2f9e514b1cb87;0xe859e4607faf8;0x4c1f609cedb2];[0x1;0x1dead13061c1c;0x976a66d724591;0x6d05ef51d165;0x5d8e84210783a;0x33c3d374ca99];[0x1;0xb180d9788550;0xf7c2cb5c4fd9;0x1fcda0eefa373;0x916cba7f05df6;0x1bc3f9bc78b60];[0x1;0x7e7a5f394a0bc;0x6acba03542d16;0xdd40e83c9437a;0x9ccbb83b231b3;0x192aaac87af49];[0x0;0xd86c4279bb0da;0x728f2ac44ab69;0x630623106249f;0xfa42313c9ad08;0xd91b242a545af]]);
 ((V [0xa390c1c011c65;0x417eda6443d59;0x8dfd6cdd85426;0xa23baf2998fb1;0x82e2429183d] [0x55cc4f3efd360;0xc1cfd6836fb04;0xbb5fbffe7fd05;0x94381b9313db2;0x9282a4ff1da]),[[0xe22eb54e38c4e;0xe5071e640db8a;0xf39b830bc60a0;0xaac398493d41a;0x1df811eec771];[0x83197acfa5b5b;0xaf531bee9ca82;0x10c76614a7973;0xea56018029773;0x30efbc4ea7ed];[0x1;0x58cbfc821c09c;0x8e71afcccf994;0x253ae380d7452;0x2eeab863a309c;0x5df8ae98b70f];[0x1;0xab105f1507120;0x53368a83638e;0x72cc407a88174;0xda424a27d559f;0xece8ba9137a0];[0x1;0xb3867b4f6239c;0x47b9e1dc09b2f;0x90beecf5cd47;0x989c2b807b5f1;0x62bb77819ab7];[0x0;0xad6f74f197174;0x51146adfa5dbd;0x8c4c25fa9e18f;0x900cabcd82ac0;0x2dbc4f8cc19bf]]);
 ((V [0xbe072fcd479a5;0xaed9f4b680358;0xf360aabb29e85;0x6e6bed565b8b3;0x67515f23e20f] [0x68c30af90bbd3;0x1dde659755942;0xc43e968b8fe30;0x3d793495d50e0;0x174bd8a71519]),[[0x7432f49d32913;0xe84b25b98db59;0xd24e02af22b51;0x56e2dd5aad437;0x45f1588dfb3f];[0xc5ce00795c932;0x36b18b6778e02;0x301b260d0e1f6;0x2815e7a9b1d04;0x3341d3a34f57];[0x1;0xc355a47a76abf;0x71059fe5d3fbe;0x1888df1fc9c75;0x4c387338f53c;0x65fdd21f73e6];[0x1;0x3afb2cd6af5c0;0x9d4279586c9a5;0x5f6828a88d6e0;0xd309ce083ef80;0x12989204acba2];[0x1;0x3d74475842caf;0xe18a76041d17e;0x46dfaf1b13864;0x2aa24635ea7bd;0xc92354635e4b];[0x0;0x360ac771229b3;0x126550f688549;0x16bf293ce4c58;0xee31ccfda364c;0x88f38046d582d]])]
 [[0xd36854171712;0x11633024d1edf;0x33ce38a808d45;0xfe2712d0d32bc;0x1e06e8820c85];[0x5ff0cb1395bff;0xc2aaa4cf1ac97;0xd1af7d8cd773;0x20db80d498668;0x58a6a08a08ad];[0x1;0x4193c5862d23f;0xa775bf0adb8c6;0x1e935005de0f7;0x2db7782bd11b;0x5de8183ba168];[0x1;0xb78f111a10f74;0x6f63663b390e9;0x6d43b1c441129;0x37574ac71dd5e;0x208f9b1ef4a84];[0x1;0xfb6d866ccb21c;0xe519974f9820e;0xcc4492f640297;0xf20ad24c02348;0x1e29389fc9117];[0x0;0xbf329f11220e8;0x119c23929b5f;0xab0a4f780ee54;0x4fab39744ac4f;0x34017dfc530ba]].
Definition wit_B_64_15 : colwit ipt wit := mk_colwit (V [0x2d716b46b33ae;0xcf8f520a1fc7d;0x615af36b248b6;0xeaa68e955dce0;0x232a2700ecba] [0xb6db8a5a8cee1;0x4dd1258c609ec;0x5957465693eed;0x8509cf0141b78;0x655efc1de50])
 [[0x4c72d729dc4c2;0xd4845d776d2c7;0x7af5b1708509f;0xb7fb70dbfef9c;0x15bdeeb90e07];[0x8186a28653bae;0xfcf39aa31b0a7;0xa3a61e85f5fa4;0x5a5902e3f2eb0;0x48bb096fe634];[0x1;0xc18e1face517c;0x12635ce34f43b;0xfc7931a68e3ea;0x278c403a222b3;0x8613811973d4];[0x1;0x37d37b4593130;0xaadbfe2121f6;0x666b71101c0ef;0x3d5622cfef09c;0x19eba9eca39bc];[0x1;0x81a389fbc465c;0x66554064fea4f;0x16ab4f1d3b5d1;0xf194ddd44737b;0xdb55776b4ba8];[0x0;0x47faeb5785cba;0xc7e36bb68c485;0xb2a4ba9b82047;0xa62d38e459205;0x241d63f1888c1]]
 [[[0x82fd1b8f3c919;0xbbbd97d19efaf;0x82bb2de29f61d;0x29ee835812efe;0x2c6667585fb2];[0x1;0xace65c21a95c3;0xa0cd92e88772;0xf201ca853a108;0xed3ec5a12abf6;0xad50749b5fc96;0x1];[0x1;0x844d4e4823a67;0x4e31f2163586e;0x3f186649d2bff;0xccf0d9ea55f40;0x11cdb6915eec5];[0x0;0xdc9531d9c5d25;0x1478d1840ab03;0x3d4541bcfb96a;0xbca2446db4ddb;0x49605bb66da61]];
 [[0xcbb254b30562b;0xdc294259756d4;0x559c95c2d568;0x19c0b06051d79;0x55d7abd8de61];[0x1;0xc3db8bd45d5a5;0xdf32394f4c1c6;0xe2abfbcc7bfa6;0xefd5c64557b2e;0x5817d32def219;0x1];[0x1;0x273f79506a85f;0xb9d0b18d895aa;0x22b840cd47c4;0x79a76f6ce5784;0xe365f15ef760];[0x0;0x4bd60680a2259;0x9bcbab761a97b;0xbe51b1f7b3cf8;0x2e80fbcf5f7ca;0xa0c9e6438b1ea]];
 [[0x50a238227bd4e;0x2709d37745150;0x6e5433acb5a12;0x8ff017609ebbf;0x5c05ca42da60];[0x1;0x470217435f286;0x794ebc0cace9d;0x61231b97a40f3;0xce5dde2f4ecb7;0x49fae98ab21a2;0x1];[0x1;0x8c57a57eae79c;0xd86e07d90715a;0xed379915b8095;0x807452f5d74ea;0xcb34d003fd21];[0x0;0x1f54c1fe8c258;0xdebe854419ac5;0xb530382b50697;0xa6b8f34b7d8e9;0xa4e66eca56bae]];
 [[0x8e250fc402fc5;0x91395deb6d38d;0xd2f80f0e137c5;0x93d946ab8bf0d;0x4079a80303eb];[0x1;0x2d05ce36f117a;0xab500d1fd1697;0xbc1f5bf58de20;0xab8f6c50f4e0e;0x7e83dd740a414;0x1];[0x1;0x18965be7376ff;0xd9d34af791d2b;0x80264c804f62a;0xcd6bfeb38cec7;0xdbf491248a8a];[0x0;0x7f0c538f9eaae;0xdc5211f3f2c4c;0xd0632fdd490f5;0x989324b2159f;0x6ace784ceadde]];
 [[0xa7452ce9778ac;0x8475248f321af;0x782bd649aba50;0x372e8430e97aa;0x391b61409e8b];[0x1;0xf2a979912fbfc;0x88c3384cf1fc4;0x545a5c3bdf176;0xb1e20e63ba689;0x8d5aad4c1d3b0;0x1];[0x1;0xf4119ef785f0;0xb6b9cdeb256c7;0x99dbbe5bbd4ca;0xa13bbf7fe84af;0x135253e0cbba5];[0x0;0x4ff682603c3d0;0x6f1b1cc72e855;0xd6ac715c08fb9;0x10a0b8c1de11f;0x6406704af37cd]];
 [[0xe66a7d74845cb;0xea1050b96717a;0x444d9f143d47f;0x84e31a211396c;0x30336b65099a];[0x1;0x144bff26858d6;0xf286b2dabf25b;0x8631f06381116;0x7eddea49b386c;0xad20722725803;0x1];[0x1;0xd610504ece9f;0x9967634faaed1;0x26b38af3c0f37;0xd01b446d0afa4;0x1f39b7c78ca27];[0x0;0x3428df8b85aab;0xf7e8e4e07ed3;0x43d6969c86af1;0x8da29e23c17ff;0x51f800f92e6b8]];
 [[0xd41f782ce2013;0x56f57ac3c9bc0;0x2f7573ffc606c;0xc9c801e4b3110;0x76ed991d50dd];[0x1;0xf070a6ba56be6;0xe5ae3c9c47d16;0x2f337eac5d9f6;0x1e1ef414b686b;0x10b622f77abef;0x1];[0x1;0x13879d4e6f2af;0xe1e76b54252e5;0x5ca87a229ff66;0xbdee78e3af7cc;0x137742093d84c];[0x0;0x510f7ff3f5d7b;0x239c3b7b090a9;0x49cd4940090f7;0x4680bf294ce18;0xdb9ddd7f0817e]];
 [[0x1827c9713e8ff;0xdc5626f8b6c9b;0x13272a95eae5e;0x3ddb436ea1bcc;0x3817ad401d3f];[0x1;0x25231ba8ce696;0x1517bcfdff383;0xa3462e10e3040;0xb49896b313a5e;0x9087567fd023a;0x1];[0x1;0x40ff0a5031a57;0x5a5de34e52de2;0x8581b70fd3799;0x1299ae79f32a3;0xbb8eeb3da1e7];[0x0;0xfc7c90ccac68f;0xb9854437734d4;0xf7352be108a15;0x19e8c3e2c58c8;0x5d3fa19ca7f78]];
 [[0x43291fe297782;0x44bdbca78716d;0x167d3bcd3c259;0x45487d9c2a792;0x2a3ae40165a9];[0x1;0xa872be824a534;0x7b0565b64b324;0x40947ebe29d0c;0x5dfc4b4ba81ba;0xae8daf7a2f129;0x1];[0x1;0x5b4b5d94e135c;0xc325fb12b9ff5;0xcec33e709854d;0xe086767ea4b27;0x11730f4b2efcb];[0x0;0x29cf5fa01abca;0x441718208b931;0xda54e4200b5d4;0xbd83404245896;0x427e32550b069]];
 [[0xddd07b3433feb;0x8fb4bff1a78d8;0x65955e4c51a71;0x6447e679fa8f4;0x2133bfa743a2];[0x1;0xb6c6aef815832;0xc7b2497a4350c;0x7c661568cefeb;0x283e8abb0ddf9;0xc554e1322370a;0x1];[0x1;0x5d0a9677fcddf;0xd0f916fa3aacd;0x89472b0af6d1d;0x2fc25a24f84ac;0x182d0c6dd58b7];[0x0;0xe642a74307e2c;0xf0c8f6f1435a;0x60e694a948837;0xc4c8f2cdda23b;0x2e56575f42e53]];
 [[0x2e861f262327f;0x60a0bf9db5ef;0xeff3a911fa65d;0x335e637d6e982;0x4eef08869fe4];[0x1;0x2bd124df69ccd;0xb51beb7a904de;0xb0ccbfdd2b06e;0x7a20126fe8d38;0x602edb1201b46;0x1];[0x1;0x2504fe7cde557;0x1446a40e5413d;0xe71e4a6641f42;0xf4fdea19fad92;0x14af33053ff4f];[0x0;0x52e7f53ad21af;0xebbea29796790;0x917fb867e61f6;0x40db2d3bebad;0x8431c05eb1b82]];
 [[0x7a4e4b7d94b59;0x83d936d675a26;0x3def5cc1cde40;0xf17d70bf09282;0x45774c6cce75];[0x1;0x49f929a2c6c0b;0x141ce60d81cde;0x100e90d803511;0x35b38b84e519f;0x750a0899f6e97;0x1];[0x1;0xeabba687565e7;0x7e2ae5f5022f7;0x34fb407754ab1;0xcc27e976989f3;0x1c7ef9f47d049];[0x0;0x7fe4f8fa14b8d;0xe7961e5302f9e;0x68150d62de9a9;0x5ea41128cd75a;0x772725d99abad]];
 [[0xdff967fbab023;0xddf8cf08b1e6;0x340a590159aed;0xba54aa46593f2;0x304901339632];[0x1;0x6270a8cfd9a4d;0x105a6452872f9;0x1d9f39136c1bf;0xe7bbf26dec20a;0xa642b0f08795f;0x1];[0x1;0x60d1b1332b84f;0x368ec7fe86371;0xdf01b9aa37eb8;0x97b810d1ddf22;0x14e19822d70a6];[0x0;0x63160541656ec;0xf1903b7dbe345;0x58dfe4c886042;0x91edd29e614b9;0x5c1845b74b9b3]];
 [[0x7995e59e93e20;0x243df76182064;0x283993ee1b3be;0x4de909eac8f4b;0x3251e19c429f];[0x1;0xd7dbf00ac0180;0x7f395d24b57a3;0xa713cd2f1bd0d;0x8901b1bf620f5;0xa7ecce27b0ad3;0x1];[0x1;0xdba506541dc00;0xd604c226bb69b;0xfef4415ad1cc4;0x994b43637716b;0xbab267379550];[0x0;0x66935bf6e35c0;0xc79325455bcfa;0xd8ae1a8cdbc27;0xfaed3c8b25982;0x5d3220100f26e]];
 [[0xcd83605401d59;0xe6c020eafa454;0x67cf6facafafc;0xddb76efdc2dcd;0x72b5c48a65cd];[0x1;0x45bf9b9dc5a07;0x623228a419cef;0x5686036111fd6;0x720b6df2f3cda;0x1b67a6216b415;0x1];[0x1;0x5908a3858c1e7;0x7fe7ab54a0596;0x429f20ce2fe26;0x391e9e713d4e8;0x11d8f3ae39874];[0x0;0xf7004c02435bd;0x927010aa19e04;0x54cb550ce7cd8;0xf5b01683ba09c;0xd92014d0ed7a0]]]
 (V [0x8717c373c2b2b;0xc0957120f9cbb;0x5d5d4bc021694;0xc370748909956;0x15dffe29f3c2] [0x7fce93b24feea;0xb90dbb748991c;0xab5ce832ae114;0x8fc570751e902;0x7387657a37c7]) [[0xbe58ae8f0de3d;0x5337d7ec2e9b6;0xd9a33d6299b81;0x4266b08c9d8f4;0x2adf6431ca7b];[0x1;0xa9805a2b29763;0x185e1be85a05b;0x389c3b971d5d3;0x83b73c0e33f91;0xbaf5e5c22c9c7;0x1];[0x1;0xb4a73cb97c8f;0x333de637d6ffe;0xc2a405a20f430;0xf778ad9ab7263;0x14fd7be926482];[0x0;0xdb5c9f2d92058;0x79ba93b3a26d1;0xecb46db545d06;0x7d14e072a0e12;0x45be077eae366]]
 [((V [0x42bb3ef232c36;0x638f53ae787d0;0xa6fe4ef2a1c7c;0xaddd7b742009c;0x7a4d07a3a66a] [0x1ff7c532f6146;0xcb5d907bedcd0;0x9cb40e4f8a43e;0x51b78e3698a64;0x51f54519802]),[[0xfa9ab2a286974;0xb23a0e702672;0x71b8a17de3411;0x26697ec6ff9a;0x7fa213223c78];[0x25c48bc0c26f0;0xee3141f03d2ac;0xe93822f1e8c2f;0x840f8ac46cdf9;0x6b774610fc82];[0x1;0x446c08c48ea5f;0xee344ffe608e0;0xb985ffb3d69bf;0x383042d3ac29b;0xd33184c2a22d];[0x1;0x7416fdec9cd70;0x35c8f48290033;0x99ad8dfcd78d5;0x231a62530389e;0x19e6665c487cc];[0x1;0xefa425d92f4f0;0x63e6b5aff37d1;0xefdd38e46321e;0x1d742d9fb5ab;0xccd59cbeba5d];[0x0;0xfb1fd84e05a98;0x57a25e9b7da7b;0x922bdeca9e698;0xfbbe37d0c1cfa;0xf1e73ab6862cb]]);
 ((V [0x65bc8d80b4dc4;0x571570e91c108;0x61690946244ee;0xbe96ecf36eec3;0x25e91dcea99e] [0x20376b4512d2f;0x61b102b9c7124;0xda41ab7a3c90d;0xa03ab02cbf50b;0x1b3541c9fa05]),[[0x198fcc580a17e;0x9d4d9fc09c7ab;0x1a3d47979468;0x28eda09f2adfd;0x4b7c0352cfa9];[0x3d359eb90d83;0xd31b3b2923109;0x440deb5c4ac7a;0x2d1e6ce146afc;0x7363d1e58359];[0x1;0xb196db605aefc;0x7679eb257f6d9;0x85e5aef3f5a91;0xf071ce0931fd;0x71ec9edfe01e];[0x1;0x1bb0cc96d62d8;0xbe3b9ef40cae7;0xf88859aae83eb;0x1811177fa1f56;0x2ae4c4799ff27];[0x1;0xa534d90a175c;0xcbb3f693469c4;0x6642538c24a99;0x899eb3880f724;0x208828e207105];[0x0;0xda34a692505ba;0x7253eb73e1a77;0x93a9c04488a06;0xabec25d72625d;0x9ac178f73e398]]);
 ((V [0xbdcb08c3ee397;0xfe2970ab5ff01;0xfeb04906655e2;0x173a224c63cf1;0x63f816b786b4] [0x5a37d4442ae45;0x300e0a6505517;0x352fb25ec9de5;0x3c35f2d28b58b;0x52225c75c89d]),[[0x93d0305aa7a6c;0x325b025810adf;0xc5cf6bbd1db22;0xa721adcd26d2c;0x1b5c3c0e8085];[0x84877abbc7c3c;0xff376045733a2;0xc8c31ba5184df;0x69a4d8c3aa447;0x5e6033428577];[0x1;0x8f03580f35770;0x6fc3165451a27;0xdf9d19ed369b9;0x94a5ccfc24d96;0xb185f8bb058c];[0x1;0xa27d5b6dcd618;0x661452607e278;0x74548ad82f07d;0x9e4c11a8d4f17;0x22a9f85b74103];[0x1;0x9f016cb728bf0;0xba5cae60e38e4;0x9dbc9aa6db4cd;0x6c0b97b223e67;0x159bb78dd24a4];[0x0;0x30efa796ee48;0x679ee1ccd18cb;0xfbe1124984342;0x43d273175ce1d;0x29ef0a0fcf953]]);
 ((V [0xe8e563db33c04;0xa339ac8cbb2c5;0x89abe2cf2ccc8;0xb6aa0528ad508;0x40e6e6757e58] [0xc0ae653cb319d;0x3c78ff6314a89;0xd96f4c4ce90b3;0x55f05c1ac8522;0x333d14f2a8fb]),[[0x651d84784f92d;0x2f0a06c430067;0x1cbac5a0c1147;0x89d0c7f6d168b;0xd455df5ee11];[0x1179f274d187a;0xfb25fe8ac57ef;0x6ffd5132c6143;0x7206dd9cafc72;0x1d8b60d97d4e];[0x0;0xea58822f11d39;0x62045c57a3d45;0xe3f8d5fb6510c;0xc72bd3ca26e03;0x12fce248f4f3];[0x1;0xb0fe986ed86e;0xe70fa271b979f;0x5c48895328086;0xe2ccd3c71c5c;0xa03c44afc8af];[0x1;0x1611867ace2f;0xf73d41745d1a6;0xb497ffa657952;0x58e1039d0082c;0x2104deb1b9108];[0x0;0x3b4ddf2ab54bc;0xbf255375127a7;0x84802084397d;0x84e90557a9527;0xaed4f9cb62b2]])]
 [[0x9db9de170caec;0x15a5d9c0eb19e;0xdc2e5b08a87ab;0xd174ef99ff12d;0x761c1e305bfc];[0x677825ae4c332;0xa7a4e9c386f52;0x1232185752b3;0xea9efb29a96ea;0x688f84f21a38];[0x1;0xc57fab302a570;0xf6cacefa9ef33;0x84cea1c372fc3;0x65db36d044e75;0xb03682e8e0ec];[0x1;0x881e6b81e23c8;0x3d23189b7a0ab;0x78674d1d1553f;0x741ff886a4250;0x214cdfc28b255];[0x1;0x2a308fb137ff0;0xf76c1015656c2;0x1cd2835d8d6c9;0xf98ca4fc9640d;0x13c6daf91f5db];[0x0;0x56839c53ce29c;0x58b5a478a3575;0x5d7ea538b1127;0x4b6c197e91863;0xe0083f74e0fa0]].
Definition wit_B_64_16 : colwit ipt wit := mk_colwit (V [0xaec0c94b769b9;0x5f172462f0808;0x224e874bb44a9;0x52ec9b1b32abd;0x6f0255470c1d] [0xb10dcccc70ec6;0xac400df7cf46c;0x167aefec30674;0xdfb4a0c5ea57d;0x691c63695fbd])
 [[0x23fcdd5e2a16b;0x617fe22abd598;0x562b78c4e2e0a;0x751addb30e0e3;0x3a7cd147909d];[0x392de5dfdff34;0x30cff3e7306c2;0x9b0ef1ad5561f;0x849ea920c6158;0x2324e80da986];[0x1;0x534fc29077000;0x947023911c0d3;0x54caba8b81767;0x8066fbfa42434;0x10983f45f990];[0x1;0xdda5103d3914e;0x8e2adea7d1e80;0xaf2b98a44b8d4;0xe4997e4b96c37;0x7a35a3ea642d];[0x1;0x1840044f1e4df;0x23ca3bd64ef82;0xedbd0c7623333;0x6087d31dd6694;0x20ee6fa53310c];[0x0;0x1eb05724c4540;0xcb7d75edf00aa;0x77321e7a1e04;0x2d3753e9b83e1;0x5e900a8889407]]
 [[[0x699334af34a54;0xf660faa04471a;0x26d3f47505ba1;0x2f2618c2e9f04;0x2962e5a73e6];[0x1;0x190b16aa1c158;0xf0585bc63098;0x32b496da7b70b;0x866e1dbcbb94;0xba45a88aa900;0x2];[0x1;0xf8f7914f9cdf0;0x8f0ba29a3fd9d;0x593af8e353101;0x6f7ebc4554672;0x18858c4f2b0ae];[0x1;0x6d9d9238a4174;0x7711a44ba53ec;0xd72d3dd1f21f5;0xa35a228b71976;0x140452814c7bd]];
 [[0x4c4ce91b676e7;0x23ddf06aa757;0xfb768e5e77788;0xe325d5b7bbe31;0x6ae30658e64a];[0x1;0xe72ec06d394f8;0x8c6595d4aef8a;0x9ac1e697feb27;0xcad4ef1717c65;0x2daeed97f65c5;0x1];[0x1;0xd9e42cc16ba67;0xebcc5147f45bf;0x52ee25b4e24df;0xf41431ba0bed;0x135e2deef377c];[0x0;0x3be9060a03ddb;0x4da7568ee0f3f;0x9625df6d116b8;0xd8740d4b4ed20;0xc734eb17f46b2]];
 [[0x8c1066ee7cf55;0x545cf4855fd94;0x40ebdaf7cbbdb;0xaa50bbe7f438b;0x4ce2f1c2ef23];[0x1;0x3d28c5d8c62c;0x5400d04e3b102;0x72f7c235903b5;0x5c91f291df987;0x7a18543971414;0x1];[0x1;0x460d9a780695f;0x3e43aad9a3418;0x1dbfeda12e895;0xa60e83b8dd99c;0x1b7fe9c4ad49e];[0x0;0x1f6c108ce3e6e;0xe5500e03ecce3;0xb460c182e79c2;0x331024673efdd;0x8cb19097359ef]];
 [[0xc2f560409ed8b;0x96280f76f8e64;0x8795f9899f01;0xeb94f8b168454;0x139da1cfdea9];[0x1;0xda62bb0d1ac6d;0x149c207f967e7;0xfc653d0157fc6;0xeba89a36d670a;0xe4308ad2ab028;0x1];[0x1;0x821e62f8e501f;0xe25c29f1ecc19;0x9254142745846;0x81b3834ccab79;0x1cb70f89d0167];[0x0;0xebd64a253252a;0x825aa9504e4ae;0xc14cb14efea11;0x4abb397b30bcb;0xa11efa389dd8]];
 [[0xccc51c6b615cb;0x8c7d45e4e775d;0x5ccbf3aa2167e;0x97c4065b631c9;0x4bd8ffd76f8b];[0x1;0x5bc77cf26c8ae;0x9800296c9ab33;0xc39c6246b6b8a;0xfa3963675550d;0x7119f19bce004;0x1];[0x1;0x9808e6ebbee9f;0x83acd97dded0b;0x9b9177240bcbd;0xd1f28b1fdcbba;0x22a74617f8cc6];[0x0;0xa854bec662806;0x39dd9533ccaef;0x25e839a4f6d24;0x8bb0352ceab20;0x8634470c72aab]];
 [[0x15cf0a4a7e90b;0xb5bdb9d3756e3;0x27585bccda405;0x53c20d1cd2198;0x20c82e145396];[0x1;0x21faf2b115113;0x2e8a2c74e4311;0xee960bdd15ca5;0xa742238c84f3d;0xd311e0af235de;0x1];[0x1;0x4114559c7eb1f;0x6c1b287ddee2d;0xb9a3a725d27d;0x5ca05b42e31cf;0x20cbeac47eb78];[0x0;0x3c27f8929a014;0x2286b09b8e83;0x7ed2b1991562e;0x61e43fc268c5;0x31a35d76401ed]];
 [[0xf704d74e2fd3d;0x6cd944ece7788;0x687b06ecf7ad1;0x70d7ee4d2fd78;0xda48b402801];[0x1;0x5bae4d20f5c06;0xe092f15263e59;0x8447a6566ff7c;0xdbc7fcef71518;0xf3e6d251d35b4;0x1];[0x1;0xdf5815a4dc68f;0x2fc2d2f6f8b68;0x33ed55ece1c02;0xdceda3e0c0644;0x1a51befa482c2];[0x0;0x1357c4e3ceef;0xec45934bdfb04;0x7de776e06cc5f;0x4341d9fd38a3e;0x9086206bb5a8]];
 [[0x64fe1e4a50c53;0xc85b8503a74d3;0x486f12b7863f1;0xb36c7c1795b65;0x5d86198f1729];[0x1;0xcc31cc1cb844c;0xd087a0000ff82;0xbe7b075b4ba82;0xb01e241bdaf8d;0x538489dba2fdc;0x1];[0x1;0xede0074a1552f;0xd3e5833e6525c;0x78b93b390632d;0xa35cda852c485;0x1772a4c5cb6dd];[0x0;0x9730b7b1bd3c;0xbe7349efe1a96;0xc3333c6161628;0x3281f5f72a17e;0xb3ea985292804]];
 [[0x8febbfcf94e52;0x63ca91356bac6;0x66f448607f4c0;0x22c84d5422d73;0x682288595581];[0x1;0x74370781e84f2;0xe5c016fa9acc2;0x88aa67f042f7a;0x83c65eba64d95;0x3c648f8c8f94a;0x1];[0x1;0x4cd8588dc151c;0xd7391f34d2cd4;0xafeef7962605a;0xfe307e0a7f138;0x1868c9bf4a4c3];[0x0;0xe23974d25fc16;0xe1c52cb01d4ce;0x3916f35667a3;0x121e12ad687c5;0xc157002c09e10]];
 [[0x8808e8adbb48;0xe73ee47893e62;0x28a1eeb50b496;0xe4407c359e297;0x65a7010ada6a];[0x1;0x94d9e033fc3b8;0x5e9037d657101;0x81309c9ab4fa;0x195d507e303e8;0x3c613b53f831a;0x1];[0x1;0x31fdde0f331c0;0x5e4c9cdbb13dd;0xa516da81c76f;0x39d8c1e6c2970;0x13e39111a5f3e];[0x0;0xfa3bd9c9941e0;0x6dbd78b2b2bbb;0x1af4ead53843;0xbeaf23883c38b;0xc53b1c4d31a6d]];
 [[0x88735658603ef;0x5461f908844be;0xf1b2a390466c5;0xb6e3946519889;0x11a12617711b];[0x1;0x26bc5c993d39c;0xe5416761e7101;0xd0df9d28b9420;0x58f929c882f94;0xf5c725dab33b9;0x1];[0x1;0xd8d518169a237;0xa8cfc765c60fb;0x9b17f0a5ad209;0x44acfb126d609;0x1c03466442be8];[0x0;0x4b2a106374713;0xcc30a6f6e156c;0x9f4a04eb7c9b4;0x970ed50791e26;0x202485fedfaf7]];
 [[0xb213144afc977;0x2dd0e09b7e7f3;0xa5760a80a017d;0x740e9daf32755;0x50cf7a3d6110];[0x1;0x692acd2d16398;0x35df8e36f4819;0x9ab45ba6927b6;0xd167371ee9958;0x74c1310ae9bb0;0x1];[0x1;0xa460a378b3687;0xe1d3bc7e835a9;0xe7bf942f12970;0x38eb549fd442d;0x1e83182b8eb68];[0x0;0x5a531cf261563;0x50181c33e50b1;0x751cc6ee1e37d;0xe85fed563a754;0x9d4e6b09aed49]];
 [[0x68a5a96e6c0be;0x19726b4103797;0xc4c0cc33713e7;0xe79ceb621416b;0x274ff8d28e01];[0x1;0xb363908577d58;0xcc8709fc988a7;0xfbd77aa7c412f;0xd358025feee3;0xc149bfec5e663;0x1];[0x1;0xcd28c3a4ccc5c;0x671b581b9efcd;0x6ede3f2ef594f;0x3851baf0a6d69;0x1b20bd7e0e364];[0x0;0xee3c8b2f322a2;0xd937fc15c2a7d;0xf3357373cdfb0;0xf875cfc480f2b;0x438092b410cc9]];
 [[0xc056bc049df77;0x4c864fe3b8665;0x3542e0ce263e3;0xe1758210d5431;0x241d3a4cd8b7];[0x1;0x28df5fead632a;0x439e29553107d;0x3d55f1b00eb74;0x6e28b80e1b3f8;0xcdbfe332dc208;0x1];[0x1;0xc222c4e2a287;0x603fb01602740;0x69941ac72eb0;0x6e96dbb92ab52;0x15a35dd37d3e6];[0x0;0xa61f39b57ee3d;0x4c81fba8ef170;0x920cdc18e87c7;0x9050ca61fc59e;0x432a824ca1081]];
 [[0x7dcd936ff85fb;0x6a7c05d09e1f6;0xa49e5dba003cc;0x762a26155a128;0x174becf71e36];[0x1;0xee5becca318b4;0x97097f9c27059;0x4cc2c11acba1f;0x5db17e924278d;0xe7d4d679cd8c6;0x1];[0x1;0x6cbbdb5da5c7f;0x23bd839111f62;0xb66c28aaa2ae3;0x660510905707e;0xfc9fa5b205d1];[0x0;0x7c7de9c542531;0x6dfa8afce258f;0x936ea7f67c1c2;0xac2c1c82d5455;0x260f8b40ad688]]]
 (V [0xe6e9a7ef0642e;0xc681728595601;0xd9bb615865903;0xb3359e622aeeb;0x25e8804b9964] [0x6109d0a896a23;0x741045dca2065;0x9faa9f5c2412e;0x7a8b1f134a863;0x4bd0b653327e]) [[0x240dd5404508;0x93e95d1ea3723;0x1e7a9b4a3304a;0xcab9ceccd2d3;0x2905f8bd9dc1];[0x1;0xfe96110fe9bd8;0x6f651daecb3b2;0xac7660ece254;0x3a52022816daa;0xc00023b42f440;0x1];[0x1;0xe4e7c2a1445c0;0xa74467cb702b;0x8b1b8dcd29006;0x7b39ec18ef18b;0xed48a077514d];[0x0;0x6e7cb54027cf8;0x58aafe810e8a;0x92f1872793bc0;0xbe791dc18a875;0x44850ced5a1ce]]
 [((V [0xc986c6e8255c8;0x209226e340b3f;0xf456f9d4d7fda;0x544e9166bec49;0x7eca50ee27db] [0x4a36bb5306d83;0x50bb016aa1126;0xd9817e8f89ab5;0x146f2fbea5624;0x2fb1cb657fd8]),[[0xf45e295222abf;0xc5a72ec5e0e70;0xaef37517531a6;0x300da6f02c04f;0x374094e7ecf0];[0xc884699bc9061;0x6bd7a11cf04be;0x69c5392f474b7;0x3e008337fa578;0x6c3a9b083dfa];[0x1;0xa154eb0993f1c;0x2c17e276a03d7;0x7f14cf97ae818;0xd7ec8440c4c24;0xcd3b259334a2];[0x1;0x13a1430eb07b6;0xa5f6dd2b2d2cc;0x1239e40393f97;0xa33f0683280bf;0x247ebc4663da5];[0x1;0xaffaa257d59d7;0x487785ad24175;0xadce8ec275b5e;0x23d17a945c0b5;0x17d5d027dd084];[0x0;0x73106a306d3c9;0xa70cec9fb6735;0xb66c7fd1adb2;0x43bd4d8321118;0x601f04e7fd681]]);
 ((V [0x3afaf7aab20f0;0x5f5e8cbc9eff4;0x83b1a1864b687;0x6bfddcc1b51af;0x4049476ab39f] [0xb0cfb537b033f;0x284a8d944b1c7;0x932bd6756369c;0x345ef6b58ebaf;0x519dc32678c]),[[0x7609b57b3cd4d;0x8c513267888c5;0x9d9e82fe45ab4;0x7444fd42e4944;0x7872e430439e];[0x13ad3962d6115;0x7f7a46caaf2b3;0x909790a0ecb36;0xd6bae5f772fb6;0x416607dad25b];[0x1;0xa0ee97854c9c0;0x34b2c235281c0;0x264e201c0256d;0xa64a9844d8f9e;0x53480992366];[0x1;0xfba773f34f802;0xc5a2e02c63ac0;0x9875a39ca4154;0xcf18caa82a955;0x12ea13302f54f];[0x1;0x6d97f00a0f4ef;0xb9a193dca83ca;0xd63a82f197a3a;0x99de309839af4;0x20a63ff937b1e];[0x0;0xfa20f75791ea5;0xab80db7497e5d;0x92f61ead2ed5;0xbdce642c46a66;0xf58092e4e090a]]);
 ((V [0x6fddbea8867e2;0x94fa623a20682;0x48acabd8f9cb0;0x87d618be36f8e;0x43745b9d6a1c] [0x9b8dc8c868d21;0x1c6fdcef059ce;0x20d0429f88ff8;0x617d59d284c0a;0x4d9de4f0eac9]),[[0x47408cc40cc8;0x5fc8f005a7e02;0x15165cc3d54c;0x88c4ee99a745f;0x41b0bd7f91d1];[0x82ebc0559ea06;0x9bb273396fc91;0xc10b11d86b0c9;0xcae4d93fb394d;0x2ebc2055536c];[0x1;0xdbeda24887700;0x614ea92a55eef;0xc2aa856cf77da;0x8fbd5044bf26f;0x3d2ecf4c55ac];[0x1;0xa4f28916f9c10;0xc87b2265a198f;0x6743e068c495f;0x82912d915350e;0x1132c6824af90];[0x1;0x891143b8259c0;0xbb895b3d63ba1;0x522ea9ea11531;0xb6c0bad005a80;0x166576065db41];[0x0;0x6af261d9e1e38;0xbf3d8f114177;0x526f5ef19ece7;0x191f2ada6239f;0x7d0b8aafcdcc4]]);
 ((V [0x925e8c8d64d8b;0xd1cacc9864a27;0x1ca5a20bb9085;0x1b1857790c1cf;0x3dfd41f1bdef] [0xc87ea07206076;0x98153057fa031;0x98c4d40e9acd5;0xeadc773c3404e;0x4357789b410c]),[[0xa1bde7ded13af;0x64abd24381c49;0xfbf322944e998;0x100688d5c871c;0x2fc8e98d7938];[0x165c6610c0abf;0x9278297d150a7;0xb8f4fa5e3c04a;0x5a7de5a601f56;0x59ff77cea8a2];[0x1;0x9e61d6dce71dc;0xf597fac724eba;0x52977679ca640;0xee9a3e3f1de0e;0x9072b5ee374b];[0x1;0x7294b207ed932;0x5f19663040536;0x7a00d6722e22a;0x8a110ceef453e;0x1e209320d2e28];[0x1;0x96e3972ad15b7;0x85b5e9c861d26;0x65cc141795df6;0xb0e4945b296d5;0x177f52b79bb0a];[0x0;0xa745818e18e70;0x4bad61afea5d5;0xfa3959b80ac7b;0xeea09f629409f;0x50905afa2451c]])]
 [[0xe06db0013506f;0xbbf499292d92b;0x530bba612c11;0x3a37f34ba2d55;0x301149e79a7c];[0xa781ecd91a08f;0xb4d2728cd658b;0xf919d99b50fe0;0x2cabc0a7b97c4;0x271ceb54f09a];[0x1;0x10b030e74101f;0x2e138aec67e79;0xb2f1d791c07a7;0x50d807f9adbdb;0x30347eb8a690];[0x1;0xad0c9c6a1268c;0xc858944725204;0x772e294892c5;0x7cefdba12fdb8;0xb819b889b1c0];[0x1;0xa744655d7337;0xec5b2253458db;0xedec4967d966a;0xcefc325bcc62d;0x16495b7012f4e];[0x0;0xb8d6140a70cc;0xe4c3bb9d8ff88;0xfca5ca98d6646;0x8a6773fb6a6a7;0x57cab2362a76f]].
Definition wit_B_64_17 : colwit ipt wit := mk_colwit (V [0xb2501747fefc0;0xb081ddc07227f;0x82839d6a9104a;0xfbd360bd0deb;0x2ad931e04d22] [0x7bf42130e188a;0x7b775d6c67e59;0x4753c4606d26;0x32554c2dcabaa;0x52226dbc994b])
 [[0x9cb3d8e57d074;0x4e8acd78944db;0x803ade850bac0;0x992c3b0d83146;0x21d8d1d944af];[0xaa4e9919c9cfb;0xdf1d8da431c83;0x80ccc57037975;0x2be6f58e2cb94;0x21ef4adf911a];[0x1;0xe5dc9a7e9e700;0xb9ae2fb773bb9;0x1c189f603dd0f;0x4fb51207d4231;0x2486e1ab5697];[0x1;0xfb4da16814120;0x443f08cc40871;0xdc4389278a8fe;0x42c6b89aaebc6;0xbf58ccf39807];[0x1;0x139ccfc6cdcf0;0x971396affbf3d;0x45339f6cae2d;0x9bd6bdfeaa9c3;0x14a1a7a426cc9];[0x0;0xd10d6b22e4cb4;0xe316202617892;0xd55615391d3b7;0xbecd521dc3b7c;0x38fba9e70083d]]
 [[[0x47a18276429ed;0xdd07b8ffbbf7a;0x2e8828b585486;0xae14cf43b5dc;0x5d42300d55b3];[0x1;0xf4acd0ae52ae3;0x72cc355de4e75;0x6eae1492f1264;0x6f8e652864a5b;0x57f4bddc19bb8;0x1];[0x1;0x15168fcd34eaf;0x2dffdfa2512e7;0x4f5b118435998;0x7f581af5d7ddf;0x134c717d13130];[0x0;0xb35775279ee85;0xf5fdf33df26ee;0x777d96e2c7663;0x258e0346b9038;0xbb4f621149203]];
 [[0x73e5f54ec9887;0x8e5d93350cee5;0xdcbb4a0970436;0xee7759e48b5fa;0x79694e7edc16];[0x1;0xdd7666f772b01;0x100bfcfbe47c7;0xf9e811c44b00b;0x97092db8e771;0x20e84bbad0553;0x1];[0x1;0x243bbd0fe59a7;0xdba2a86c1a609;0xd28e9493a0119;0x659fceb788ac0;0x162bc5eff660c];[0x0;0xd88fb37682a5;0xe7fb160f7fa16;0x5a75bc9039755;0x24508a63ab3dd;0xf2abbd8931e6b]];
 [[0x798c5c5e70d8f;0xd6994dfad17bc;0x5b35ee1b6a656;0x5caf1f981df2b;0x4544068aeb82];[0x1;0x5984ef0a0b9eb;0x6fc871609d702;0xd99db78e7684a;0xeefd6b6d50a3;0x88dc205d28df1;0x1];[0x1;0x7fc7fd78d2777;0x760679e1789d6;0x1c0cfe1895ddd;0xf275928af3381;0x1fb2fa1827499];[0x0;0xa21aa43f772f;0xf266af65b3477;0x2bec52d3e0251;0xa4c80318ae7e3;0x83dc2c0ea1c3d]];
 [[0x50b492e8912f3;0xe28b8bce745e1;0xe7cac6f1a1ae0;0xf22a9d075580;0x4caf456bf7d9];[0x1;0x312b77fda479f;0xa524a505490d7;0x7be0fe4a23df0;0x4fe2e0abadcf0;0x791e0f2486417;0x1];[0x1;0x9366f8b948f6f;0x8959a21243825;0x9728ba5f1d9de;0x88cdd23a0b1cb;0x1f4ec2b02bbc7];[0x0;0x9ba0eeee3853d;0x9fa76d58440a0;0x2ec55c79b1526;0xcb4a205342f91;0x8efda31b66601]];
 [[0x705a5ab8a5c4b;0x5667b6081b092;0xe38fe195062f7;0x23d465be38e87;0x5bfe0552c62];[0x1;0x4829b143ce19d;0x44995545ff78d;0xa0826c3bf00c8;0x46e1ec195eb24;0x4f7f1bfef555;0x2];[0x1;0x9c5e4282e079f;0xb77e8c7b5a622;0xddb77ebfe0e35;0x5a35daf5d63b1;0x2248960063f93];[0x1;0x6f7162a64b92c;0x1b694294ec8aa;0xa80ba1cdef1a8;0x3b34b242548ff;0xbaf27a7450df]];
 [[0xbdf743e0775f6;0x4592023144bb0;0xfbf55cb4376b8;0x52584c2f94c36;0xc4b25ce24de];[0x1;0x3fa1b76cfbf68;0xd686b0d7cb6d1;0xa06db7a2d9c72;0x55986a0d55d79;0xf37e378fc3cf2;0x1];[0x1;0x34b3e9b84f9fc;0xd60695fa8a149;0xdf620278dd5f8;0xfb421f2103a18;0x23ba3c13ee8bf];[0x0;0xdbe7f816049ae;0x7441fe72a6e9e;0x7c0a8d5b2a2ca;0x172d1330cdadd;0x6e9074470f7b]];
 [[0x33624e5dfd6f0;0x70c03eabef947;0xf440787eb426c;0x38811f7fa5904;0x676378619612];[0x1;0x903b44307f580;0xfd8a10dc95e46;0x378fe137e7acd;0xecd09678ede98;0x4487d188e6a56;0x1];[0x1;0xffb3e2c7d3700;0xcbd354e0bbcf0;0xd7738b815f385;0x244086b2f9f18;0x188505bd6af73];[0x0;0x5ae69d08b4a80;0x539a32e83bbe4;0xbfc0afed28a2b;0x8c3e333937a99;0xc65873fd2d887]];
 [[0x1c0128edefe6c;0x7a5d3e5bf396e;0xc451419885c86;0x1c3c220f8648;0x69611da15c15];[0x1;0x62904f8302dac;0x35c822c7a10b8;0x52597404f0772;0x5d6b0395224ff;0x35800f77a991a;0x1];[0x1;0x7e5cf9a8c2bf0;0x5e7b019cc4a37;0x9708456229b51;0x17561167c8618;0x11c72356df402];[0x0;0xcdf3775a62a84;0xf6a19e8a5b908;0xd9b7f588af0d8;0xda1f54a866770;0xca325a21dfedc]];
 [[0xcd529dc82e232;0x27dbc08ce9b33;0xe1a2f68961d9d;0x9a425bcfefec0;0x54c7c9954476];[0x1;0xa25d64ca5640e;0xad8f34b9563a3;0x7f03683910656;0xdbd8eb843b94f;0x6a44e35b47531;0x1];[0x1;0x4b26063fba99c;0x7127e275ade22;0x517663a96b96c;0x58a3ea80ea202;0x105c681f340b3];[0x0;0x1e200a32857ec;0xd47a0621fc094;0xb12d8612bc289;0x4e959dc2f3537;0x9f9586dcf17f1]];
 [[0xef1e9617c81d9;0xd1da596f028d4;0x885fa00c7ad90;0x3351082303edb;0x12966beee8bc];[0x1;0xd3ea86c0c9dca;0x5b624c7f81015;0x4cf4dd05683d6;0x3d8bb8e687b73;0xe5ebb84d6e32c;0x1];[0x1;0x6acb0628cf8e7;0xe85c6663d8cf;0x8131314b0a386;0xef986d321033b;0x12feada2c1301];[0x0;0x7dff33e2ae151;0x1c1f46ca9776b;0x39871b1abae60;0x4066039d166c2;0x144ed7f6f44b4]];
 [[0xc3bcdde6d6446;0xe4a23db31c5f6;0x9992b90d7b0a;0x9f1219250018c;0x32999f851b6f];[0x1;0x7a33b83077f0c;0x96890e143b3ea;0x335f917725811;0x52919d5777535;0xaea292f5ef791;0x1];[0x1;0x9daa165d9313c;0xa40087b7d3612;0x694781262247a;0x76a4157e63d9f;0x1501a48d925d3];[0x0;0xa22c5d108ffa;0x9a75626ae83b;0x983c3072e638e;0xe7c3460bb8b8d;0x5d615ce18125f]];
 [[0x15fdc54a3af07;0x655533dc17631;0x37886b57eb270;0x39d61ba554612;0x6eb50e331d83];[0x1;0xe37d5dcc39c;0xf205b44d5d722;0xeb0d57b199028;0x3a15ac7f9f09c;0x305e7501c4973;0x1];[0x1;0x74d16f9f8a6a7;0x4ee0129a4484e;0xa3fc06498c1d3;0xc15870e3c8bfd;0x1272b3a3d7732];[0x0;0xbbb9af3ede0f9;0x3f26324292a00;0xfb9b8c70e8aee;0xd317ea88eb73e;0xd176b7da4ebdc]];
 [[0x90f04c11aae18;0xb8454fe714d60;0x513e0935ff114;0xf7521ac8c4e5e;0x6b96771de299];[0x1;0xb354c5cef0390;0x5358ee8de3e9;0xaa40713a42b15;0x5d91b15531709;0x3349035570d54;0x1];[0x1;0xe1180fd6123c0;0x70c2bdc77615b;0x6c8685d8945fe;0xf5d564b44fbcc;0x1698f622956dd];[0x0;0xc3eda682ea728;0x59b9ddc8262c4;0x256d200915f25;0x1d614593dbf97;0xcf780975cb22f]];
 [[0x834f456ac4276;0xde3b4bf060abd;0xd69dec6143f1f;0x8ba68a76a013b;0x65e29ab44651];[0x1;0x6f2028dcdda60;0x783d60f1333a8;0xfa448646e763e;0xe7232ce08e6d4;0x48b19a602219f;0x1];[0x1;0x7b3e39f1ac3fc;0x6cf64dca86702;0xa3e41e693ae54;0xf3bafbeb5816f;0xfb3ca610f812];[0x0;0x21924c6490db6;0x7a7ff9c9ae46;0x435f3d1097dc1;0x357fd760dca56;0xc9e695080052c]];
 [[0x51427904c2fe7;0xf939260643cc2;0xe0a4e315dd236;0xf7fb59d0ecf69;0x26ffbbbd3004];[0x1;0x1ccf50f6a16b0;0xdcb552e3c62d;0xbef2290b0c95c;0x8d40f2494927e;0xbfa3abd305673;0x1];[0x1;0xe7b79ee822c67;0x2708542a9b96c;0x44981fcdbcb68;0x52bc21e0fbf95;0xfec402816566];[0x0;0x762ea62f683fc;0x71717a7e6efa5;0x5d5f6774574f3;0x7b1e4612d98f2;0x43e7c649a85e5]]]
 (V [0xa9d81f4fc45a7;0xe0b8b6ab8b74;0xd274394ca0668;0x7afc0ef33aa1b;0x4a5afda9f22c] [0x9ab15454f5636;0xf1dca5f4859f8;0x38f5711826323;0xd0e4096acb3d5;0x46dc6d442ec6]) [[0x8ab5789db1532;0xd537dd332fcca;0x33efaad250c6a;0x788eff85fbbe4;0x33fc9dff93bb];[0x1;0x3e3160e0d7caa;0x7b05c29fd4e45;0x9aeff74e98fc2;0xe654776a7195f;0xa5ed53844e15b;0x1];[0x1;0xbbf1cf603dd9c;0xd1bbd359501c7;0x59bbd5075e6fe;0xe8dcc784c93a2;0x185ed8ff76e30];[0x0;0xfebcae7eb7920;0xb458f17145a23;0xe34ac71545a0c;0x1175e3dcce347;0x6056506cf713b]]
 [((V [0x3cac2d2be1869;0x5997a8d38f93f;0x8d663b299ba0c;0x4f042b7d7c43e;0x483b3d76d209] [0x52027a3b7df38;0x2155a60f98d9;0xb3c42f6408d48;0x727e215bdd275;0xe0a91a60b31]),[[0xdfafd6fda1c67;0xd10889ce06db9;0x2fd9c545c6ab4;0xfea0127c2c49;0x6d93ead9f378];[0x24790e8f45d59;0x1f829b282bac6;0x78dbe553f173d;0x819e19f8172c8;0x71d18fdf378f];[0x1;0xd9af5268907e7;0x6cd7e395ae157;0xee97ab24edba2;0x5380b2607f547;0xb871a9c3416c];[0x1;0xc692ceffb806c;0xd6cbba45b493;0xe742a65ee2807;0x594867dd7624e;0x231962ed0f4a1];[0x1;0xa9a9e1efb4567;0x49547f49788da;0x6186e2db31d2;0x81cd2ef5ad550;0x15c13daab1e9a];[0x0;0x9b516db989a09;0x5ab57619e3730;0x32365cc49e187;0xf491087d280a0;0xd7814c64bdbd9]]);
 ((V [0xe113d82194d6b;0x2f447d96f9f86;0x4255fa2970f78;0x3e4eddf21a15e;0x5819efd872e6] [0x900fadbd0d474;0x2c5af83a7d974;0xd584371945b03;0xa9ef0c47528f4;0x52f666e76a32]),[[0x8b0a9b9e03d03;0xe94c1b040799f;0x98d4e2c42ca58;0xbb188843c5d99;0x4d566364bab4];[0xf32e9e5f116ed;0x5257519a730db;0xcc265a8cbbeee;0x5a0c7b67abb5e;0x4fef63387bd1];[0x1;0x7f386ff676ac7;0xf9b2ec010c896;0xf1a1b2d260a33;0xec21f4e9deda1;0x771c05e0844a];[0x1;0xa65f426567830;0x6bab543643720;0x40a92cafcae69;0xc946d97c614df;0x1cea4a814f78a];[0x1;0xdf3e42c339d0f;0x3bb4f314ec6b8;0x1050243ca6a3;0x44a520ccf8137;0x1a266aba920c7];[0x0;0xcf74552f82e6d;0xe3015553f32ae;0x41c3a993c4254;0x6a7d7f10198b;0x92c8a319fd70e]]);
 ((V [0x131b948cb58fd;0xcd503bd3a4253;0x9a81d728bf68a;0x9e2c3a0e38ea2;0x56474345fdb1] [0xff9cf0d3ccce8;0x470013bb5136f;0xb7adb45952020;0xffc1e6a2463c;0x5298a5b5fc1c]),[[0x1a5c81e6829e8;0x4448ffe99b6f3;0x7386b3e1c1a73;0x6bbb5e8cb47b8;0x58bf4365d7eb];[0x339961f28a8f3;0xb8246480333be;0xee8d7a66061c8;0x579664a502330;0x70f2a6da03be];[0x1;0x9b1082aa2dcdf;0xeeefa24a4bbb8;0x3f5ef37000a14;0x7c780069e1d02;0xa5419ea8f787];[0x1;0x9d1de0a63cbc0;0xd02173e84727c;0x8db74de9b1128;0xde2fcaace600b;0x232a52ce4d155];[0x1;0xa3bec195da3c0;0x48adef18cc42e;0x60645ca145147;0x2fca262c7c838;0x1cf6e2b7676ab];[0x0;0xa70a8750a7418;0x50793db0b7d50;0xb2babac45267;0x8f09439ae340a;0xa26cd26ddf57e]]);
 ((V [0xcfa5151f82225;0xd2e522822964c;0x287dd4c051145;0x10cc88a90fdd0;0x29259199b63a] [0x65fe286075b98;0x655975b42b95e;0x60c8ebf78407e;0x275b24afe2149;0x112dc98929fd]),[[0xb88d7e1910b2f;0xbf3c185d6e683;0x236bea6cfd0b1;0x9afc98ae3d849;0x29d6591a97c7];[0x215df5c3dfc3e;0x76b917e80fc4f;0x4dd4dbfb0e6bd;0x9369d496951e;0x23437d539951];[0x1;0x3987351cbc10f;0x8be2d910e4f4b;0x7c9f66dadad5a;0x88fae7995e2d7;0xc5f109460ba];[0x1;0xdd3dbf7e6db50;0xd0ac8f8cb6bc;0x7c26326b6ef7d;0x190d5a11c4d5b;0x9d968464518b];[0x1;0x65b350b02ccb7;0x3f80be8cd8b40;0x91745391e4ef1;0x36f9fa84797b1;0x19dbb78442b0c];[0x0;0xe10f78df738f7;0x8e43cc3679f21;0xd25bf8bb96161;0x545adfbac67d6;0x4abd4fc984d5a]])]
 [[0x61ab9dd6f5f59;0xad787990fe2f3;0x602f997a0208;0x16315e2727148;0x26b3271b9983];[0xf92ae3c23f95c;0x734e475b72b07;0x5e28eced9406;0xdd66599a28371;0x26e2e03380aa];[0x1;0x6a76cddfa953f;0x6b95b69f3daf4;0x30c2422098a2e;0x3505c11c37d4c;0x408ba419b61c];[0x1;0x6cad1269de4d0;0xb8af505ad024e;0x51f85a0789723;0x301083636837e;0xdeedfafc981c];[0x1;0x535f3013b3de7;0xdcaa0bfe427a7;0xffcccef6e0c1e;0xa9c9b0ac42ad9;0x132f04b774ae6];[0x0;0xfd80ccb96afca;0xc648e166afc8f;0x62f2de687c4d7;0x256be54ae8386;0x4bcd549c47ff2]].
Definition wit_B_64_18 : colwit ipt wit := mk_colwit (V [0x64864982e30e1;0xc4920e0f1dd44;0x8a31279ce7fb7;0x8655daee826c2;0x4b1fc3f48f77] [0x937fa74130b8c;0xea7366a521bfd;0xe0360d2667c9c;0x91ffdf1d78834;0x19dceb274fb2])
 [[0x81854961b56e0;0xd9a94f2b793ce;0xa2d12475ee506;0x495744ec235df;0x3ad5ba13b323];[0xc1f184b703e28;0xba44a057fb01b;0x7485b7db3375e;0xa0cfd53f3fdcc;0x7e94bd5698dc];[0x1;0x9af95d898ebf0;0x1152bdfabe629;0xc08142caa404b;0xc11a8fe26fde4;0xcecf6f28d4ca];[0x1;0x556903c85c600;0xdbef5f79d2f34;0xe335db35d3711;0x77d70afc44521;0x2eeba37d5c179];[0x1;0xa835e67841c00;0xc9580406f7a7d;0xddcd6ffde951a;0x78ea6c8564b48;0x1af4f30797116];[0x0;0x4aac24f846a80;0x9eca6d8c807f0;0xb541be9f2ea53;0x333928aa8d397;0x74fa4d4f02786]]
 [[[0x43a2d22af3565;0x4c3bc31b06824;0x131c2dc8e2ea8;0x2f66d89b50b61;0x3666ad9dbb58];[0x1;0xa9c97bb4574f2;0xde89d8f6c102c;0xa3056538fefb2;0xcb621e1a6d860;0xa1e3e45e1fe80;0x1];[0x1;0x4a6e47c8ea0bf;0x626a44719e8b4;0x5af4318a56dde;0xad01531baf24d;0x1270666c1b7ef];[0x0;0x31d88d5d88132;0x777fea78618bc;0x86c20b72f3eef;0x4c532bc3ebf12;0x69d3825dad911]];
 [[0xeeb7bf6c15600;0x93e1e5554cf7a;0xfefc5ad9fc8da;0xf74b64582bb1f;0x7b34f0f1fe];[0x1;0x7ab290f1c9600;0x1eb6c8656b99d;0x9b8f1cb3a07f4;0xaf597049fa980;0xb2d4dd7e949b;0x2];[0x1;0x4c2e5257c0000;0x41edab4965108;0x90b3f15087671;0x3c29ed0f79d62;0x166e85aadc2c9];[0x1;0x34512a79af400;0x23f77cebc62c8;0x39659813c80c9;0x20896957090de;0x9ed818eeb69a]];
 [[0xa42f137ddf966;0x44012967b8e7c;0xfa8d00f0cf4c4;0xce1ce387ff206;0x3f13973472eb];[0x1;0x58bb0083f7aa0;0xcbbffcbc7a54e;0xb97d483f6a729;0x8585e32fcead7;0x8df8d3056ed8f;0x1];[0x1;0x6a342c8a463bc;0x6dd145fa3c663;0x7526093d74e27;0xe1d355f698485;0x1a50eb4e799b8];[0x0;0x8e0dad4f07826;0xf9e38d7c1006c;0x5771c2077401c;0xcc5abc5cfb9a9;0x7bcba1f1d4d09]];
 [[0xbab1b4737b833;0x84f303c87eb7d;0xadd250e3318bf;0x779dc9b0d42a8;0x6ddf2c9983e0];[0x1;0xf6b95428f1c50;0x78f13a2168239;0x26a7e0ec2d1d6;0xe66807ee7ac39;0x2baa4728940bb;0x1];[0x1;0x5ff990cadbef;0x5d85a2c06b3f6;0xc3a9995f6cb43;0xd48713de87da5;0x19c6783389fe1];[0x0;0xbc637f332f9dc;0x19e810ff1b56b;0x6ba74685f0e7f;0xee16e62ecdb37;0xd53df85e6e5e9]];
 [[0xc134b16f41b85;0x227b49ed7349e;0x88e8dbf09443e;0x65e56b4e35fe0;0x4815da425d87];[0x1;0x109bf1075acd1;0xb0b62ce5a6c1d;0x199ceb0427cf1;0x14a2ba0ecb2d3;0x7a8cbc2f4a3c0;0x1];[0x1;0xb8b18419ef57f;0xd36a6888ca85b;0xfe7a7675806c1;0x75fe1d488a09;0x2288ac8b9dd90];[0x0;0xd5a1921c709f2;0xd5263bb8cc680;0x8263cb1dc6f7c;0x9769501cbb872;0x8e0f72a4a271a]];
 [[0x191a18c59cce0;0x98f3bf89271ca;0xf72953d3669e7;0x13ace56c58947;0x74df94fab41a];[0x1;0x6d1bbcfde9d80;0x3a64c88db256;0x9f76f0a10e912;0xbf5770bfce70a;0x2191756e637e4;0x1];[0x1;0xfbbc012a59c00;0x139715dbbe329;0xece983bae66b9;0x1a1f56e440b77;0x1825fcd75b155];[0x0;0xff90af85a9c80;0xcacb1511024a4;0x1c82c9101ecf8;0x97b5a283a4bd8;0xe2f2bbb264688]];
 [[0xfe1f71bd7684d;0xdd859f1901d09;0x2e08c4bf50334;0xbf298f1bfd67d;0x35842109684];[0x1;0x6ef42ca17ab45;0x2f89a259a0b5f;0xec7353a9be256;0x733f25e6434ee;0xfed1602b1a5e2;0x1];[0x1;0x97b2304f406ef;0xef6285178399e;0xb092c420ce8a1;0xd8e7538562f35;0x157927f1e9de0];[0x1;0x7ab2124f05394;0xb3d6052fc20fc;0xc21c27168a8cd;0x7a7ce94e636f0;0x11d19d5528e81]];
 [[0x7392d10375cf7;0x404faf0082bd6;0x5879092a46f1c;0x258bc9463e325;0x23cd0d0ba46a];[0x1;0xdc34bb189f832;0xdbbd1eb4b4664;0xf66d35cedbc7b;0xddef0f7f7cfa6;0xbd2d7bc81667e;0x1];[0x1;0xc11a6958e2d87;0x680965c5de83d;0xba80ee6d3c509;0xa26e6b210ea3d;0x185a2e50024d2];[0x0;0xde359db7e04f1;0xb9b6ad5ad28b2;0xd50ae8c4233a0;0x3ea9df27a479a;0x301c50cb78312]];
 [[0xbe4428c94e417;0xa3808b1965f4f;0x753a997839b47;0xdc46a00085ff3;0x1447a711d260];[0x1;0xcfdee0d13fc18;0xe0fbc81d8a4ef;0xdfddf6643efb6;0x5af4132a9fc16;0xdca5825f7a9c7;0x1];[0x1;0x3323a5b0f3c7;0x462be68484d52;0x17b22cbdc1ac8;0x2786e4dbe8b76;0x2304085f5bf48];[0x0;0xee6254a831f80;0xdfa485e5464b2;0xb07b9f6bc9d63;0x5408c02568f28;0x1c3ce9e5744b6]];
 [[0x9e09cedd4e249;0x662f192bb1e87;0x275702891004b;0xce96b6a5fe715;0x15562d7b7eb3];[0x1;0xd6956bdf2edd1;0xed45396948b8f;0x6f127defa9d82;0x64b51417587b9;0xe6fb3eaf4792c;0x1];[0x1;0x6239c389e8707;0x319f5239dbe74;0x58ca9dd954256;0xf4a4719a24411;0x258423b49ed97];[0x0;0xfff4b26b6e177;0x73f7bb197af6d;0x75b349cba7328;0xf4d6b1fd0d8f7;0x24c767d1f5843]];
 [[0x29c3d6d37b8fc;0x58fce1d510c12;0x598f19217d42e;0x3a408a7ca045f;0x1cb91563af27];[0x1;0x4b3162dd36c54;0xef0202f6719ca;0x7ee72f230e3;0xc00f7c8efce79;0xd22cc136b3b3c;0x1];[0x1;0xdbfe0e72f8d70;0xca186f9968754;0x8a7384007ba35;0x760498e528f74;0x228661e933b0a];[0x0;0xacaf8015e3458;0x8414ce6be1962;0x8fb95333232cf;0xa81b82ade5110;0x2a63d04392f39]];
 [[0x3c3f689a9bcb0;0xa08b45424c5e0;0x799c33790ffad;0xcf04639cf9f32;0x113a79b598cb];[0x1;0xcdfa382db3b60;0xe0e1dca7b5d59;0x908008cb6aabd;0x82809b4662b09;0xe4ce97dcdcfc0;0x1];[0x1;0x1c0305cca9f00;0x8748d83e89a12;0xb498602317b46;0x75ef574f6cc95;0x21cb93763fe65];[0x0;0x353d199a76690;0xe5d823052dbc9;0xe854e4b3dde33;0x88fabad8fee34;0x17649a721fb2a]];
 [[0xf8ae38b267ea3;0x8914373301cd;0xf178a726bbadb;0xefe6f79d9a8fa;0x221877c10442];[0x1;0xae8ef6fd1ba38;0x8eefccf30ee69;0xc87227fe0cf06;0xe47626fba96aa;0xcca8ffb1f3219;0x1];[0x1;0x73edb88dce94f;0xd3a6154b42bed;0x7a340bbec8dba;0x96917b879409f;0x26f06222a8655];[0x0;0xe66771f540463;0xc66c6cab34785;0x7a29dd469f66d;0x415eeb61110fd;0x37d2cd8fdaa4b]];
 [[0x81f0eaaa133d5;0x310738e1dc81b;0x2e46ec818a78;0x4112df30686a;0x5ba145beac5a];[0x1;0x228066a07e0e8;0x59ec368fe672a;0x968fe73098284;0xa3f8168db82d1;0x4b1eddb4c1e4b;0x1];[0x1;0xcbb5693f645f;0xdba99a612d4ee;0xc00221c6007bd;0x5eeb29b3bc1f0;0x157d2236e05c4];[0x0;0xf23a51dbdff98;0xceb47025be121;0xad04779e1a8cc;0xfa758ab2d1857;0xae008cd7d954a]];
 [[0x206adae50b1d6;0x56d51e6dfa672;0x10929393ce312;0x3a68310ff4772;0x39713c6fb0ca];[0x1;0xa2dcf8a02c1f6;0xc2c4506206997;0xc2bd51350491f;0xb3fba279edef6;0x93b137f717233;0x1];[0x1;0xa558e9ccfdf7c;0x4ea6a8762a07e;0xcaa6d4237c78b;0xfd50d3d769edd;0xadbcd86f6043];[0x0;0x42eb17dbc1b34;0x7704c2ffdea3d;0x79f7444cc573e;0x4fff87f16060f;0x6d47272a161e8]]]
 (V [0xeab2be48ea82f;0x5f7ba2ef5c710;0x6ea4ac799f057;0xd466217cc2298;0xb8257debfd8] [0xfccc0773a744f;0x2d7bc9220ce6f;0x8b9978357c8;0xf1840a0dc6bb3;0x409e42699b4b]) [[0xbdb2f5615fa8;0x63dddc7bcfda6;0x403374b05db21;0x58cfb9169856d;0x74d1c9fbcc50];[0x1;0xfcf59519cc568;0x3d02375558e99;0x24eb94b6296bc;0x40e70e30b625b;0x1b68c57cd17c6;0x1];[0x1;0x7afc72efa47c0;0x614bc50883afd;0xe7bd9dbe4b1ad;0xf7145a2790b52;0x7088f963f8d8];[0x0;0x48c6e38244340;0xfde84cdd2c356;0xe5e3bcbb8c5ec;0x3db3579d46518;0xe7c2315bc090b]]
 [((V [0xb11af127e197c;0x626784ca7dd66;0xac0b04c5ec333;0x586c8c0704135;0x158c55edf7b6] [0x9682ec31ab92b;0xd749fd9aacb51;0x8ab16efcd2872;0x206c17c827873;0x333f0209d99a]),[[0x4160ec2985933;0xc4f901bbdf3d4;0xb4d0953a7ed67;0x9247f70191bb3;0x68ad47c1873e];[0x263e42043c28c;0xa9b495d3c88ca;0x18cd9213e14ea;0xd2169b19f40e4;0x407ef9ff33c4];[0x1;0xa3d9f3f3536b7;0xc6e6ca55505ab;0x5c9751fe85cbf;0x5ecee098505a3;0x7ff5082965c8];[0x1;0x430bfa10fcc76;0xe799139e4331d;0x529a71fedb2fc;0x4aeede0dc2745;0x11949bbd11d4f];[0x1;0x82a68084ec5ef;0x95d5bfd005312;0xa5ef50c1e4a53;0xe8f57037c18dd;0x3878c2853ae];[0x0;0xbba540bb6f624;0xa3e7fedd6631b;0x2700ef82fdce6;0x4489aa1096f5b;0xc8e66017d0eb6]]);
 ((V [0xc9da4e4cb61e2;0xf384754013aac;0x4458cc0fd6dce;0xd585c1e02aceb;0x58fb4715dbd7] [0xef48c6fc56a7a;0xa69d4f2207c9d;0x92346dfc0e674;0x7d97a09717af5;0xb4a059b9e8d]),[[0x2f10f99aa44;0x56cb21aabab09;0x303e3bcf51ad7;0x157d6402ac780;0x463c2e35a30b];[0x9388fd721d7a6;0xb0ec7f664bac6;0xb8140ee2d6ea3;0xdd778fcedf20;0x14965a582fef];[0x1;0x5d27e1dcdf170;0xc0056dcddd9ae;0x9511208d51913;0xa0628a82e23e5;0x258c0ea21858];[0x1;0x82caebfd1ff68;0x22bf613d7ed75;0xcf4b53c99db08;0xa14eb7ee133a6;0x434903c4342b];[0x1;0x6906428e2d370;0x7c328b42d1f4e;0x1b2110c2d8208;0x6f2e9c9d8f5c1;0xe19df70d893d];[0x0;0xb919babc62bec;0xf3c597607662d;0xed01d47082a6c;0xfa91befa80b7e;0x86baf85641829]]);
 ((V [0x75e11711b941d;0xa793f9c2baedf;0x3f44ca6347ac9;0xd0160e3206efe;0x299017e52a18] [0x3e1f578dcff02;0xa1fd84af52fde;0xd49c1cf4b753f;0x568efb3745fc;0x1a31c6573923]),[[0x905e689e0c6fb;0xad6101fa41928;0xa707bf87eda3c;0x7d65aee01434c;0x179e03756bd8];[0xddecc802cbcfb;0x542b1c12571f0;0xbed658eff4140;0x5ade9a29d75a2;0x45e53fa4a09a];[0x1;0x560cd50f8c9dc;0x7c5581d4583a7;0xb52b87114f54a;0x7a0cd3e2ab218;0x4def104241b7];[0x1;0x272a48f15b964;0x6b637b39a63b5;0x728e7d06e3560;0x5d88f77a5937c;0x19f35047dcfd8];[0x1;0x16af2cb92767f;0x7fb4585bc23e1;0x8ed6fb0a389e5;0xfdf75d8116c1d;0x1b2b1bfd306d4];[0x0;0x9440f540e1f1a;0x29c39be53c4ff;0xb9e24e5c03d17;0xf252d3675080d;0x2c926a64e3a9a]]);
 ((V [0x284ca751f3726;0xad147f2c24210;0xd6d80efca28df;0x10798b4aa19d6;0x33b8b6734c55] [0xdb50492114914;0x1d9edfda4af25;0x3e30594cc6b6;0x12d850593d497;0x66b8de2a8899]),[[0x5e4be840b017f;0x724f730752afd;0xdb23e419ae1be;0x6470c187edb79;0x4fc3b1d7bdc6];[0x3330cdb583752;0xef939a0592559;0xc48a3fb6883eb;0x1f64cb760fd3c;0x2431d6ec9082];[0x1;0x33724a0a68dcf;0x8e2006c6fada2;0x56affa8eee642;0xac3daacb5943b;0x3ae4bc5489f7];[0x1;0x6dd6e4da9d6a4;0xd5212474259ad;0xfcf23ac02d877;0xb31ed5bed2722;0xb88580457157];[0x1;0x36d7b3c153357;0x1ac792ff3d256;0xf509751208622;0x305ccb4d95415;0xdbfd11c41e5e];[0x0;0x4a5ad7283a7d0;0x14fe6805f187c;0xb276f43de2f14;0xd37e503908231;0x9401009f162e6]])]
 [[0xae4fab0136ae9;0x97602d52e367f;0x11ed5bd757836;0x5683981a46db7;0x69f1cf436971];[0xf2bb2fefa708c;0xfc26b9451730e;0xaf10bc9490510;0xe3d1192e2e6c2;0x1a05f0712174];[0x1;0x412c08f9656bc;0x63fc7044c1076;0xf6daeaa94023a;0x4104bcb3f2e37;0x1f25a4f0d28a];[0x0;0x9d7c3259722a8;0xc2771916bf130;0x5ef4f6b6a8904;0x888708c4b4aa2;0xde7c6a5b8df];[0x1;0x67612ed8cf5c7;0x2b12464119c69;0xca9840ca87338;0x36c31025aa10d;0x12b5f12c9c4ae];[0x0;0x46d3ee87e34dc;0x97a364a03b886;0x815ffc6fdf6f6;0xc0c2972791110;0xbd25f5012b525]].
Definition wit_B_64_19 : colwit ipt wit := mk_colwit (V [0xcdfaa7bef4748;0x7eb36896163e5;0x1934ef516407d;0x3711904f2c336;0xd11de55c810] [0xba88ea99a9f01;0x16a375cee592f;0x346c695adf171;0xa74e42108682b;0x55010f0c55dc])
 [[0x93c289fa668e8;0x9d7e31334b4ea;0x848dffedc6fd4;0x90a0d57742f58;0x624d73bbc37c];[0x7e3fe87724ce1;0x49afc915b6505;0x2caa61d1b120e;0xa4a0564d7d552;0x1ec9955baf9];[0x0;0x372ce6940ad71;0x174af9f481bc8;0xbf9ab511f9048;0x63e22e073532d;0x3b8e43e7e347];[0x0;0xe6befb8e86d50;0x207593e33f866;0x3f970356867ef;0x4839dbcf888a;0xa71692bdcb3c];[0x1;0x80eca7fc4f3c0;0xe3f0ca01f8a0f;0xb0a17bb1d3c7;0x4c6064a0649f8;0x136fe684451d8];[0x0;0xa4318bf848420;0xbfe31978dbeb2;0x65129f081e1ad;0x53df86d0ec601;0xb54867a162947]]
 [[[0xec8c2a84c05b8;0x6e46517c85c23;0xb30ecf66fbe38;0x87ad911dcb94a;0x6359d2b9901b];[0x1;0xcc08cdbebaef0;0x3c590494d892;0xf56878a3372b6;0x32f3d5b7133bd;0x42e9c1bb8c684;0x1];[0x1;0xd0f28a55b41c0;0x84daf5249ef21;0x137fb2cdaf4b4;0xb982899f25a43;0xb58f71dd89b4];[0x0;0x4b9f4eec72ad8;0xdd3c0ce79f7d9;0x35b8c07c919e1;0x35d2740b5380a;0xbd6306e01eb51]];
 [[0x740c52c8dcc93;0x4e5fccfb2f76a;0x8abf71f33823;0x7eca03ecf450;0x5c5402db94eb];[0x1;0xc161841b8ae82;0xdf70e6e0aac34;0x74a641e91a8e2;0xeefc60aebd262;0x58b3dc5ac535c;0x1];[0x1;0x81b3200325faf;0x7af2836f936e5;0x7ab6a2e4eff55;0x7f2c641b3dc83;0xaf179cc69616];[0x0;0xa65f80b74736;0x5f4597e96feea;0x9ac714011a81f;0xf33feba93b8f6;0xae618acb9d843]];
 [[0x1eae4d64f316c;0x8ed6044c15cc1;0x8dd2f32423f52;0x7eaf947b0304d;0x6299278233c2];[0x1;0x194123be6d89c;0xdb72eca5f6b9b;0x9a9d45ceac18;0x497afee3ff214;0x491aee25f1e4a;0x1];[0x1;0x1459e6706e3f0;0x97e8578a83815;0xbf4c43f564599;0xadb3cbe31f4ba;0xa1848a4cafb0];[0x0;0xbfd6c6ce20be4;0x9d18bbaf441d9;0x14806d4c96e69;0x3186f4448aa46;0xb65465125c0cb]];
 [[0x8a7e27794c2d9;0xfc3c3a6b7d921;0x2805f72a2b860;0x3ea63054df147;0x303ea6dd6cfe];[0x1;0xba84ee8703053;0x15b1450363e94;0xeb60116505bc;0x65075e7f77fb0;0xa90aa4c366e07;0x1];[0x1;0x629d9ae44f6e7;0x262a3e263827;0x5f6003ad52b4f;0xa33703e901a9;0xded3ae339473];[0x0;0x811fd348761bd;0x7d202cafc2647;0x7ecea907cce36;0x572a234097bf3;0x48564df2f8a28]];
 [[0xd79256f9c69ad;0x3df7334c931fb;0x353a9c4b2a814;0x98689a0aa5874;0x52afc2ab5de9];[0x1;0xde702a7d2f4db;0xd19e54ab5d98f;0x93faf1322b698;0x1e7ddc1d82158;0x677d7cc4c45ee;0x1];[0x1;0x3e32d6362792f;0xeb7a786c7fa05;0xce2be87a6fc1e;0x75f4df4157b0e;0x945f4ad9df1b];[0x0;0x36cf343acc76b;0x6fcad20170f13;0x240874594132b;0xa13f147dcdf66;0x9c2fbe8766f69]];
 [[0x3a0ccc77c24eb;0x8bf1404270c18;0x17929143f05a;0x59d259a6afbbf;0x72606da111b4];[0x1;0xc5ad8f8fe695b;0x9100d7c5eddf3;0xf533d840cc2d0;0xed9ec4858b8e7;0x282277fcf4c75;0x1];[0x1;0x4f83c003a2fdf;0xbbe54fbc187cf;0xef925d4e65ecc;0x51ff97e8c7a81;0x57c7e83ff213];[0x0;0x517da6585b250;0xcc417c0538649;0xdaf901feec3af;0x95ea9c3a2f01a;0xe0d26662c3174]];
 [[0x2dd8636db7296;0x3b19622793947;0x97840d84f1a58;0xfea6f5d77a31;0x62ec45f045ce];[0x1;0x568d077c0242c;0x5c197cfe0cfc6;0xc8ac32eaeca3d;0x7642a61b36ebd;0x50d00eb647790;0x1];[0x1;0x3d0fca09f667c;0x47accceca3bd0;0xd70444a053013;0xd1aab26af367d;0xa2c8cbc9f4d2];[0x0;0x166885c36e840;0x3be04cb133ff7;0x6e9115ee05ebe;0xe288a3368fc0b;0xbecae7ade0d51]];
 [[0xeee33aad512e2;0xf51be19e807de;0xf833c06dc4c61;0xa6977f301a9a;0x14a685af257c];[0x1;0x10a8f586abd26;0x4726415d52e01;0x3d5003c739711;0xb8c7e1ea2df94;0xe1845f61aec20;0x1];[0x1;0xa91c9820ea5dc;0xf9ddf3717581a;0xe5b386c957c89;0xef6fa6cac5838;0xf95d40563d2c];[0x0;0x7e3f696884c30;0x73a53431553b2;0x36fc69b598b41;0xaa097a1a1b532;0xead1e40ea1a1]];
 [[0xe9e01c5099ce1;0x4f3713721feb9;0x8e006d78e6162;0xc992c80ea11b8;0x4c583d8b25c4];[0x1;0x570d48d22cd4c;0x300eaa8e80dd7;0x70ca2390a831;0x7c19f87bef120;0x73227741581f2;0x1];[0x1;0xf1ba4bf68b497;0x1a469341d9c51;0x805cd512b1d55;0x7aae8aee5f9f8;0x157ad923806c0];[0x0;0x52aff823518a0;0xceefe13824a88;0x58773bd4afd3f;0x8c08955f847d9;0x83da84c54ccbd]];
 [[0x7710505076124;0x22135b700dd9f;0xa3fa6ba3acbb5;0x4ceb3f21e7f4b;0x448d5817d5fd];[0x1;0x371874747efd4;0x4715564e5ef16;0xfa08cd50ed67e;0xc6affda0dfa52;0x839f23a024482;0x1];[0x1;0x5ea2e6785b070;0xc52fc5f00b2ee;0x94dea3e0638f7;0x741f841d91821;0x12499fc2c140d];[0x0;0x66fa342a0ee98;0xd7b7ef5a633d5;0xbfae5f5388a35;0xf1ba0b66ce32b;0x780943ecaca63]];
 [[0xa5595a516425;0x4ba28ae6437c;0x399e9321a0e47;0xa739cd0cb53cd;0x26115f52b8cb];[0x1;0x708053048b2d8;0xc627d5c2e44a8;0x57e3d0346a341;0x487a00d954062;0xc2844c9fceae0;0x1];[0x1;0x67c41b9a0613f;0x2807b12ea70b4;0x3a95f62d23e2d;0x6cb4ec688eb8d;0x1106655b8a13c];[0x0;0x3677fd6090f5e;0xa127105be5dff;0x34f55642ace53;0xb56e0158af3d6;0x374c13d32bc74]];
 [[0x95a8abc17dbad;0x15fbf4f89814b;0x72b249821cd12;0xcbf33a8a31de7;0x2f05f289964];[0x1;0xab55266902757;0xae2f559127806;0xdca4d5dc396bb;0x32b708db49951;0x82bb96c4ec50;0x2];[0x1;0x861840ea9452f;0x4bdfd4d81d140;0x1e7de3e2a2612;0xc90dd156ad520;0x149c8c7818f7d];[0x1;0x3f850ca218bd2;0x7ef68fa20a558;0x2139f25b1ccff;0x626bdee0f5cc6;0x10628bb04d92c]];
 [[0x54671536716ec;0x9e5f7e10baceb;0x42e8ede203ee0;0x56d6ba99d14b7;0x5093e3e5c9ec];[0x1;0xdca004df75ce8;0x1ed4dea18b470;0x1e3c02ec9cb90;0xff0c3ff973aa1;0x6d0018eeafaa6;0x1];[0x1;0x32a5d4b225ff0;0x2d5ad221976d3;0x186b0c92c2ad8;0xba84ad176d3;0x15da59578103c];[0x0;0x57d0f51506bc8;0x6a383265fc3f1;0x4f84916dfd016;0x1e1ade000af9a;0x9551a587ad25d]];
 [[0x8c34da5d507f6;0x879c6b02f8e45;0x6de99b666f2cc;0xb0b4e53dd4289;0x2ff955b6a2a];[0x1;0x99e8375a24b46;0x752fc2ee59aa9;0xcbc4f18fcd5c8;0x3bdcae412cfae;0xef335f2c0a51;0x2];[0x1;0x59712374ca1fc;0xc123c9fb3d6c;0x5644ffe06fc41;0x20ab73d27cbdd;0x15931c3bfab46];[0x1;0x6dbd8693dbbcc;0xfc4cbff5e9ba6;0xc27fd3b5e8e21;0x7ea1b022f2c6f;0x668db1871224]];
 [[0x44ebbb9a869f;0x38f46eb8d6c84;0xd2923faffe0bf;0xb5fbeff39c58;0x4acaa1a7c661];[0x1;0x1d268e19df014;0xc2835b2f8c4e9;0x74683d86e1232;0xe8ea03b467693;0x7aa8bd27581cb;0x1];[0x1;0x869d576a17397;0x32d5bc5d1d985;0x7fab7a4a434b3;0xe347d2b463aa0;0x11db4890c0978];[0x0;0xeed8f787a9975;0x3ae15ab4cfac4;0x6ffc6b09852d4;0x7407eccf7d39f;0x8d9c231f5df5c]]]
 (V [0x117a3ffe2eba3;0xdc1c8654e2c2e;0xde0b0a40df122;0x3ab11e7e8effd;0x69b561a0d703] [0xa306fcc6f01e7;0x59968313d9a96;0x3aec278c6d840;0x9d73d52167df7;0x706ddc08cfb4]) [[0x2a410dfb92093;0x318eec081c3b7;0x9d57932d5ac3;0xfbbc7b48e09fb;0x21c0d1852179];[0x1;0x36d168a40593d;0x7bf0dd639ec84;0xc131dd76b177;0xbf702b0d57ef7;0xd56b8b2f4862e;0x1];[0x1;0xa43c0e49927af;0x2e53fcc1a5346;0x8b133ee61fa94;0x2825dd71b8483;0x24a7100f49dfa];[0x0;0x3c49f0f521783;0x3b62efb41591a;0x9eb18cc8132ca;0x79a81f0e7929;0x33cdb199eac7b]]
 [((V [0x60847ac57e4ef;0xb61378c2c9391;0xafbb1478dff92;0xfeddc907f6ee2;0x5b2d79421c7b] [0xf757da1410582;0x9d2ef549e9526;0xa236e71e21f29;0x5fae7946217cc;0x66673ef77d85]),[[0x427802a18fb6e;0x162c82c8cd134;0x690c8485f3b40;0xfc7b5df98b109;0x5c333d392daa];[0xd0daff8287e4b;0x42b8617846499;0x7d215ebd23bff;0xabd7344c2f1f9;0x53aa9d086b48];[0x1;0x993a13573eb4f;0x4aa8455c30abc;0x136af985ff24f;0x6645ff7277731;0x5008a4de9079];[0x1;0xa8cfca27310dc;0x1ddf26a7f69a8;0x33ac84f499f24;0xe4e6281e4fcd4;0x15407becd5a50];[0x1;0xc4ecfe6951c1c;0x96490e7213120;0x13b120117466f;0x203bcd6afdb84;0x21ac6bc827c86];[0x0;0xb04c0397e7046;0xd8b2fdfd5e6c8;0x9cf098df81ef;0xe6733cdaa3b46;0xa3f682e7c36d7]]);
 ((V [0xd5d63dee8074f;0x4a569d1d07c1d;0x7f08e6cad4c9;0x1c5901e91ed92;0x3de539ca419a] [0x86e269e91e40e;0xaaaa0d2ed1a46;0x8f7cfcf62981;0xb0da9fa1bc174;0x472b94c4493d]),[[0xb4b6ee678357d;0xc523d586ef0b3;0x6b1b6b5eedc80;0xb70563e8f0bf5;0x2dd3cdbba263];[0xf7d6973838ff9;0xefa27b9e2af0c;0x9fa063485ad60;0x1667ffdbecadd;0x3a3f867f30fd];[0x1;0xf20ee44b2d437;0x162911334b14;0xaa37706aca3c5;0xb73d9dde503e3;0x338c546cac1e];[0x1;0xead12f8355eec;0x89f2e831983b9;0xefb59ba3d1aa3;0x4e5031f33370b;0x11429a9229a89];[0x1;0x441c593fae40f;0xad145759584fa;0x674282a0d66de;0x9f8548502f70d;0x1d8180d7b75ae];[0x0;0x559d7a933493d;0xe01d33a78dd90;0x390fe3853be80;0x9e589d062553b;0x497a3b831c633]]);
 ((V [0x956520f18c3d7;0xc6c26667af88a;0x723b971ad93c6;0x81b0da0d747c;0x3b5a08fd4b04] [0xda84c8392bafd;0x730fc102668b8;0x6431a2b040e9d;0xc90de7e8a5ce0;0x4726753c60ed]),[[0x91801eb6d814d;0x5ea5ac865a786;0x59f29585f132c;0x87d832ef8c4a1;0x7dc0984defd6];[0xc8742d1245c10;0xd322e077fab98;0xc20ee8a2656bd;0x1a6b142c4ff29;0x7cdf0eb68f5b];[0x1;0x54d87d0089ef7;0x672a02b60a177;0xab938cb5f7edd;0x345f72c39b639;0xdbd007d77665];[0x1;0x9926b280f98b4;0xe19756a621a1b;0x51ff6caab7672;0xed937bc33e4e1;0x261630d9b83c3];[0x1;0x759cdecbb6cef;0x43a50e56b583a;0x116c646d4db16;0xb39e84b0095e2;0xf2bdade1c4f8];[0x0;0x77a8c53261dc5;0xfe44ed6843b51;0x13c50e8d6244e;0xe896521137d32;0xf1baf4f82c903]]);
 ((V [0x66544697b0847;0xcd8a69f56adea;0x7ab54c0eae8f1;0xd988a04dc6937;0x89097f07944] [0x3416a52efc39;0x6b8bf75cb0400;0x9b1b3e0f737a;0x91500581dfc47;0x403bc2cbf]),[[0xc24cad33035b2;0xfaecfda73153a;0x17363142af10f;0xcadd7a2558c95;0x5a47fdc3225c];[0x9a31bec4270d8;0x5464d3cfe8705;0x7a4a5ed9681c0;0x570101e61b395;0x1e6b217012e];[0x0;0x66429d6ebc4b9;0xa18d3a5d7ed3;0xa246bbb8555ae;0x25bd8bb960786;0x17b7db70239e];[0x0;0xe4c751e2808f4;0x78ffb85454c64;0x2e1a5ea561647;0x5abc165b3e851;0x58f5f119e707];[0x1;0x88a7e55491b9c;0xb3d0ec9f466c5;0xc769ef943b522;0xa9f367bfb3461;0xbedbee7e3ab6];[0x0;0x91875858d2b12;0x6249b0bc9df49;0x572816d9cdb8f;0x1a0588fa97ead;0xb38c4f81fa12a]])]
 [[0x99577e62bd2e8;0xb77d0b5ccc377;0x72c5152535d9c;0x12f689eb11ad3;0x252cddc26d10];[0x3671d36243f44;0x984f031bbca4f;0x8af9bf3539a69;0x4e88d500bf7a7;0x3a4028eb2fa0];[0x1;0xc7ce5e9adb927;0xf91006bcc8b4;0x80c507eb0e7e;0x5117c3cac443;0x73ed9b81beac];[0x1;0x2d5aa444bb830;0x55aab62f61c9e;0x64654e1efcaf;0x5f3311936ea22;0x15d7ea089d96c];[0x1;0xca6775fdbd3c0;0x9c62a7bd27c72;0x8628279bd7c06;0x870bbfe63cf1a;0xc3f2e5795747];[0x0;0x6da9487550170;0xf4ed96eca4211;0x62d79725027f6;0x563d90bb4e252;0x3c8fb1e1d97be]].
Definition wit_B_64_20 : colwit ipt wit := mk_colwit (V [0x192dad9f006a5;0xcb3a31dd0a782;0x516ddb057945;0xf998692966eaa;0x25a8ff091fc3] [0x19727bce8587c;0x9df698e07392b;0xf91a0c63c0ccb;0x69a95a76192e;0x7237506630c0])
 [[0x26b1040f7a9d4;0xdd2aa00085855;0x4226b5c7e7b7a;0x42b65c3f53ff0;0x7f14e01e05ad];[0x7798b51ae8393;0x3646de12974f1;0x281e700c2a929;0x2d58a29253eb6;0xa4d59681969];[0x0;0xceb93d8d11d84;0xc4ded767f3362;0xeabbc76e2f398;0x9b13259f3e8bc;0x258115441389];[0x0;0x6e75065ab9f78;0x25f0e3a6bb458;0xc5aedc0367133;0xae2df5694ef2f;0xabb5da9e013c];[0x1;0xf1308bb1601f0;0x9b1b9fb5b319e;0xd62eb4bdcaba0;0x1f77956a6bfc5;0x1261f993ab8b7];[0x0;0x81a965f0f6418;0xc161430146530;0x43d7e1ed976d8;0x5c4f143a6eed8;0xec24845e9abb1]]
 [[[0x9ed5f6c03dd6a;0xa521a3eb5fbad;0xbd0dcf1fc0ade;0x75b8482936143;0x37c91a8ed559];[0x1;0x6c366cea623b8;0x43e1fb5b26b9;0xad7539ee5680e;0xae7ddf6e26858;0x9dd78a92e7a57;0x1];[0x1;0xf8f4abb77267c;0x7c0d88feb0d0e;0x8c0ca4a2a4ccb;0xe1c5e174e2a1;0x1b34c9ce74d7b];[0x0;0xb2920dd3d4b30;0x6776a901df368;0x4452e594f17da;0x181faf0eba271;0x5a59c48a6ea1f]];
 [[0x33706f6503c92;0x86178364f1356;0x5736ef67cbe16;0x4b41a6d272d0d;0x667a07369fe2];[0x1;0xfe113c3b1b77a;0x9e0af8473ac84;0x827bc4528d1fd;0xb414671a23d18;0x44dcd868f4596;0x1];[0x1;0x81affbae63c1c;0x896fc10cf3d9b;0x98664aacb1514;0x961c65490bcc2;0xeb7508798989];[0x0;0xa92eafd115b00;0x84d7f21ef57f5;0x8c367b90c758e;0xe7e7e1b18f201;0xc3b99d29a0220]];
 [[0x3b1c48688e997;0x51aa803f7bd05;0xc9b7fb46f12e;0xe70c9e60b979f;0x7b886737a944];[0x1;0x40f7c5b798b9a;0x88fa9c895a6c5;0x78426cb941c7;0xbed5cf33af8d0;0x136f02b6e36b3;0x1];[0x1;0xf1eb62da2aec7;0xcf1a0b30abe84;0x8ef6406f11cd9;0xd1477fa22c76e;0x684c1236e4d1];[0x0;0xfe367e269b783;0x2d2a220b9f739;0xa7352d9c8f4fb;0x8eceebeb2abfd;0xe4039c243d361]];
 [[0xa3da09c8312d2;0x8ace066711eb7;0xd6ab5f6c533d6;0x55c124c09709b;0x5aaf4dd7e4bf];[0x1;0x56b86f103aae4;0x35096a1597bdc;0x6aa13948e21ca;0x9ead000535f0a;0x56bf4454a0d03;0x1];[0x1;0x6503458e3a31c;0xbb7201c5f45a5;0x2be3d2c1d419f;0x330079b7ab9c5;0x16c9f6f35be05];[0x0;0x6cd4458b9adf0;0x2c10c7b0b404e;0x1525bdb1e10ee;0xfe1711478106b;0xa2dc566ac5559]];
 [[0x19c03719eedca;0xd52e60b0125be;0x7a6dcfc435ea4;0xfed4c8c0436b0;0x61424f22fc08];[0x1;0xde264bd0c6ae;0x3bd7b66eac3a7;0x3f0dd1d0e5095;0x6472a958060f1;0x515b36d9cfbe1;0x1];[0x1;0xa7ebbddcf66fc;0x3deb32ebf32c;0x9633e37292720;0x34b84ed9fe860;0x10d26991b3566];[0x0;0x5c666399f84bc;0x38f03a66159a5;0x62f3d2ce11758;0x321ef3bf76407;0xb5e791601ba93]];
 [[0xeb5f2699d8c3e;0xcd9a4c2cac0a;0x14c9144c556ea;0x422f7951ef153;0x7deabbc60056];[0x1;0x469ec46369834;0xb6893e867e488;0x612503d0fb36f;0xbf2e22ede3f93;0x9d8567fdf33b;0x1];[0x1;0xcfc79096eaa5c;0x4d9de8d46e656;0x24bd9f265d654;0xac4c038e0b075;0x789c08932516];[0x0;0x9ada19359959a;0xe95c816f06ccd;0x6aa394a981a8b;0x2b4b75e6e;0xedbc5e96b6ee9]];
 [[0xa532cc50c1b10;0x400dfd069fac8;0x51c5eedfe33df;0x420e373583447;0xedda074b8f1];[0x1;0x2e15b8adfaf40;0xbae714427a4e;0xb3ed1af76c270;0xce5def26e8d3e;0xfc8087aca61fa;0x1];[0x1;0xc714014dcf700;0x3f435ccb7091a;0x1b9ab25ea2459;0x7ab7c6f4983bf;0xda985b8d9eb6];[0x0;0x355945c37cbd0;0xffa79f831c197;0x554b1b58f903f;0x219bfaaa2ae82;0x19d5431363ce4]];
 [[0xdb36dc1440db2;0x1873a06c71790;0x6af21b75711a1;0xfd2b51bb5f332;0x56a52ff4c339];[0x1;0xc42dce79d6690;0x33119f3e53785;0x5c5fd73007ad;0x938ccc43eb288;0x682f964aded94;0x1];[0x1;0xa24cfa1e1bb9c;0x9802054287142;0x18048d19ee760;0x21c03c571b52a;0xef86e4b7ece4];[0x0;0x914415850a1c8;0x74b0c4f7ddda5;0xd165c59842540;0x1010aea634446;0x9d4c6c10d6b33]];
 [[0x9bb39584e6981;0x36b4810bee30d;0x7e1d20a09faa7;0x8a9d9cc1be43c;0x3f046fe6dfbd];[0x1;0xf2a10c775dea5;0xce61b56f9d95;0xea6685da9b5e1;0xd106e3664e2;0x8f62bf664010b;0x1];[0x1;0x7e81241f3ed57;0x99172b91b9cfb;0x7384f9595a9b8;0xc6046254973c2;0x1d661e263199d];[0x0;0xa96038f18c6d7;0x81f9c9750721a;0x4a8d113325792;0x54bbfccf0a6a0;0x71b9c05fcd3a4]];
 [[0x1df1595fcf20a;0xd2694995446a2;0xfcaef59f183d;0xf8294ab0a5611;0x46a80fcfcdad];[0x1;0x35cc1b005eb56;0xcfba053cd4145;0xb63ca9a55dab;0x45a5eed380d70;0x8da61b6b8251e;0x1];[0x1;0x425a95f17d9fc;0xa5a04e6d4ed12;0x7e70ea516d597;0x32c8c54fbabe4;0x112634701ad29];[0x0;0x73decedaf73ec;0x25499f34e8c0e;0x47fe42c14018c;0xc3705bf20ab7a;0x8b33c4fc3e73f]];
 [[0x81723de04ef99;0x14307ad2e09a9;0x2741cc2e5d14b;0xad8405a7c459f;0x4926d821a949];[0x1;0x490e72c57f7c2;0x6bdbb164c7f62;0xce421b83cf4ed;0x676e5c1d814bd;0x7e13be74609e8;0x1];[0x1;0xe23700bc52d67;0x1e08042dc5fd4;0xdeda1adb6752c;0x39cc8d684dd0f;0x12c63b34fe4d7];[0x0;0xf5a89b2f0123c;0x3470b8fd351ee;0xee9c108b2ba8;0xa8310ddb86fe6;0x8652a4246e6af]];
 [[0x6f33ed7cbbaa0;0xfd266415796ef;0xab3f39cedafc2;0x55c1bbaac4522;0x35f699c5c229];[0x1;0xf98eb98e33460;0x2b1b3e9f1bc2f;0x29395bcdf7c5d;0x1d9efc7271fa8;0xacdb47fbd07f6;0x1];[0x1;0x7578eb7817c00;0xeff966fda1842;0x2af40f621d0c6;0xf962fa90f5e61;0x13b3c77327031];[0x0;0x1cb93a6bd5fc0;0x1e92f45895f70;0xe832bb132e103;0xf6cc026520b69;0x6636c1f36880d]];
 [[0xba075c81df347;0x3a613edd062a7;0x5c7a08923a914;0x66f04a1a36818;0x2e433cd85608];[0x1;0xe326ea5612a5e;0x9951f57eaaf12;0xf74b4c811ff10;0x585ae39db0559;0xb69c4c85955aa;0x1];[0x1;0xbda0fd59d4f27;0x130472af25af1;0x5ef7ffec17e9e;0xdc8c0fb433468;0xf68c9bca2c4a];[0x0;0x2e2d4bc5c612b;0xeee24dac2592d;0x4e153dd667627;0x88a7fdce9147a;0x55340b1547b0e]];
 [[0x8ef0de5353043;0x9e9ac3bd1582d;0x624454dea1acd;0xb4676374d38fa;0x5e524ae1d9e5];[0x1;0xf64e51a6e4002;0xf28db10f32870;0x79fcbf3cbdcd;0xacb99d43936bc;0x5cdbecbf21baf;0x1];[0x1;0xf9458412e0d8f;0x7fb61fca21ef7;0x46c2dee2a0b32;0xc0bb4470422fe;0xc2a26ad124b8];[0x0;0xa64534d54280d;0x6a32897c15356;0x234e9f8dbc563;0x16d754b2b8427;0xbd2b1d3b97fb3]];
 [[0x62b19305ba171;0x6a8bc5c95db37;0xb91a9b7774877;0xb4d6a7b8d58a0;0x3419900933b1];[0x1;0x24e2d5f34a308;0xddd5c9368232b;0xc1f86083f5ea5;0x3f8f604bb8636;0xaa7c008b64a5f;0x1];[0x1;0x331ee6cb4f977;0xf3db6416f22ed;0xa4762cdc51505;0x492f3898f16b6;0x101378e5a4926];[0x0;0x15edddd70b649;0x4ba74c4a88b16;0xb71cad533003d;0xf98cd91ccc477;0x5b4a0183e6864]]]
 (V [0x2c184fded5817;0x60f7ee4e7085e;0xab46615ac056b;0x6a07fbb35fc0e;0x64bb8061b89a] [0xc8d3f04c24e77;0x9ff21f4d6c38c;0xa27f3b03a8e5a;0x398a4a5340f20;0x6b1ee3bbca9f]) [[0x220a7e9742e7b;0x93c11376e436f;0xbb62b56aa0fed;0xa6f085a5a5881;0xef8c4014b55];[0x1;0xa6252b1952531;0x1da6c0b816d66;0x38cd7a30cf238;0x59a4835473a58;0xf9575c823b3de;0x1];[0x1;0x286252a25797f;0xd45dd5c1b03c1;0x81da080e274af;0x3798f84c9233a;0x227a6bbe900bb];[0x0;0xbadee8a68b370;0x6df46fa970e94;0xa350260e923c0;0x92335f89ce2c2;0xae72aaa0a5b2]]
 [((V [0x1e2345824902b;0x19e74888befa4;0x7e61ae8255281;0xf67c3416f986;0x2f78372968c9] [0x5f8f6fdc51dc;0xe50f9d1efb897;0xc955d1d96bd6c;0x7ee1865242751;0x7568d991aab]),[[0x5ee4ad5512138;0x305080a406a19;0xae7e2a854ddd1;0xf79a0be943c1d;0x2a1bfdf7bf74];[0xbdf7265a3e3a5;0xb3f019d0e9d55;0x7789def92756a;0xa2397daf6b15b;0x3cc6681cbc6e];[0x1;0x2df55a9065bc7;0x97f7502b093bc;0xe7c0b2ce315d0;0xdfc90a6dc9d38;0x2a46c4f72a20];[0x1;0xfae5109753370;0xd8a059bc9ac60;0xbe0a9aa34878f;0x989c3ac6da0ad;0x1262b511c5278];[0x1;0x300c25f5139c0;0xf253b3d3cb2f1;0x35a75b11c855e;0xfeb97fea37e63;0x1e4040b1001ea];[0x0;0x6f52983b9d0d8;0x9fbfd930271f3;0xada004fb2f7b4;0xad9bbe8be6763;0x49a36942be5cb]]);
 ((V [0x576f36611afd7;0x7979ad5b18139;0xce1b84968ab4d;0x271705506ebea;0x580e36249f21] [0x6010f7bbd5e94;0x29c0cc6f87246;0x1b4bc61861978;0xaeaec7f788edd;0x29cfe2e8217e]),[[0x410e7935d46a4;0x7ee99172c6724;0xc205165b93733;0x77c9fd7862715;0x76984fe23ffa];[0xcf977fe120318;0xf5e4ae6907388;0xde7105c49a185;0xfe026a9af7b02;0x469f657f085b];[0x1;0x8c3c75691cc5f;0x20ec2245ab840;0xee5a9dc753eb0;0x38457f70c79ad;0x7ba41194225a];[0x1;0x13d540ec4f320;0x8eb26aa88ac2c;0xba7dbabd0d360;0x7e078da65b7ae;0x19a23552ed599];[0x1;0x69a9ced720470;0x6790f65da1b13;0xd027a255463fd;0xf530f447da454;0x1001bc067d03d];[0x0;0xc6e103bd38974;0x54a89ce62f44c;0xba7363ea4ed44;0xd9efe668c010b;0xec1bad8a5160c]]);
 ((V [0xdd90d7d825726;0x2a6b54ce39a81;0x236c660229931;0x1d14c4c86e7e1;0x4d90fd22143a] [0xf71a18cd05ffd;0xd5a124ec0807;0xd1895bdca0411;0xc960036518c01;0x472314073356]),[[0x2366d5a1ea066;0xa0ca5bc4de2ee;0x872309946b4fe;0x483bfd6fd9e56;0x5ece223ce4e1];[0xd2fbeaca7ade5;0x48d55f281d247;0x395721a48b055;0x347b82b3856aa;0x44f47470b200];[0x1;0xc1057aca39347;0xab802a2d5c986;0xcec53e2823d;0x13388f9979d4a;0x4d555cdb1a49];[0x1;0x2d5e714986c90;0x1a7446b685051;0xa9cba7f55e2f2;0x88c1a477094ab;0x15fcab9dea6ab];[0x1;0x274793972fbc;0xbaa9442a52ec8;0x4fd51b30925af;0xc8bd26a6db31b;0x1b522c496f7a4];[0x0;0x44457ab09159c;0x65eb3552d43f0;0x783727f7a0e59;0x80786b1ceedbf;0xb5e71562eb611]]);
 ((V [0x78101406e7f84;0xa11094cacaeb8;0x2f54e60c7ce87;0x159c69cc60a8c;0x135b8a32ac19] [0x6eab1d77284b4;0xfa0109220b194;0x2ce239e272fe9;0x338c0237bc8e7;0x6f6b8676aab6]),[[0x251a53a61275d;0xaa914c575109c;0x5164281dc516c;0x3f5a8b9f72cec;0x1aa4e535ab9a];[0xdabd9a7d7e169;0xda7b57786df8;0x6fcde6670b5e2;0xd845a716623b9;0x251d27f45f12];[0x1;0xcc7bbf20cd6bc;0xe99906fb35b6e;0x6356333a303dc;0x81c465a90c252;0x1b393b203c89];[0x1;0x55ce4f22c6c5e;0xbc12907f7223b;0x81ebc62647665;0xbb6f3bf622d31;0xc11166eecfae];[0x1;0xdbfe15003ed4f;0x3f7b8083a8a56;0x7bb55d971a8ab;0x1a07d9809e56f;0x1576f3762e76a];[0x0;0xad22a1e0793e7;0x9df4121e509c;0x44fcd0886e574;0xc4bfc6d8ed1f9;0x20e422eff4e77]])]
 [[0xeb910877849b;0xd2688fbb22a9c;0x8910ebd9db55;0x4bf2c7bf87b26;0x9e0db353fe2];[0x6ea093d9255c4;0x780ec8968f893;0x4e6184d5f30e;0x1720c48b0b5f3;0x374af4dec79e];[0x1;0x4df423e67e970;0xde589e5fae905;0xd9aa94ba71dcd;0xb106edb16620a;0x6ba87b3f6ee2];[0x1;0x1deac145a1b48;0x4304dd0097256;0xa1a01de464c5b;0x331b5aa76cf81;0x13a8f2858b9fc];[0x1;0x94d5b8d0a04bf;0xdfdcb4a8767eb;0x99423d1666059;0x90035b178a5f6;0x1486c47548b15];[0x0;0x1bb04c97693d5;0x84b77b3a51f8b;0x7ea01402da467;0x69b1475d730a4;0x588da7fb3a59]].
Definition wit_B_64_21 : colwit ipt wit := mk_colwit (V [0xf514212ca6b3a;0x4622a433cb091;0x227684ded5bd8;0x2518297364f60;0x682bfc35e899] [0x745fd0a0ad68c;0xe7041df1a4007;0xefa4191f315d2;0xace7ec8f0d2f4;0x18cdbf33dc13])
 [[0x9cff9890ca2ef;0x10d027ecf23e5;0x7d6b3eed4715a;0xb0fc1482fc88a;0x5bf209492d33];[0x192c61be565a1;0xb636fd601e203;0x4bd2834f18359;0x983fd1a3f3799;0x545839805667];[0x1;0xa8c582feb3c3c;0xe6e1844b80863;0x44de48f81acbb;0xe311b7673de31;0x2ce628156069];[0x1;0xb75338e1a14b4;0x7347a74e146b6;0x824301c05c2e2;0x32b45de7bb824;0x1f57db62a5075];[0x1;0x8598a85b77037;0xc9d8d2334f6cb;0xf32148eb00e94;0x4cf9e2875cfcd;0x285ce9a48ba77];[0x0;0xc2d6e52a76763;0x2d1ce11caab0f;0x1c2a619f29f49;0xbf18472a63f01;0xbb1d01ccb7b29]]
 [[[0xea49a86b3febb;0x552bffc14c23;0x18509a6c1e6f4;0x149be7b155ee4;0x248f2eb1794c];[0x1;0x2335face71589;0xa5827fb9ecbb2;0xf38680d0edc78;0xc989aada11eaf;0xc7afa7ebc687b;0x1];[0x1;0x1135e864fefff;0x1fa7990100d89;0x7b0c1c8491d64;0x1fd8f1f124987;0x28f03321f93a1];[0x0;0xbc486a2f69133;0x8f3cd52506950;0x77cf4bf1c39ec;0x3e610d954c6b6;0x456c6695c9be9]];
 [[0xf571f1ab2be60;0x4106e3d9414a3;0xfd21fa5f782c0;0x777e22d90992d;0x6a1d7809e6aa];[0x1;0xd9b88a16b4320;0x383debb93f307;0xf6e00609ebb32;0x6e3b49957b0fd;0x322a21e2c1d14;0x1];[0x1;0xfc6331035bc00;0x7a57e61c188d1;0x84633c1cfb475;0x796e3223e800b;0x1812fb310a237];[0x0;0xa5862db665ac0;0x4bdc829b7a65f;0x441411f89f63c;0x49fc44eaa61a7;0xd3baff4235fa7]];
 [[0xb93530a8d97d9;0x84b03e674081a;0xf68c90ad78cf7;0x597b877b40d3c;0x6800c683dbdd];[0x1;0xefe24c997ec2;0x92b1771a2eb8b;0x40fca7a82e35a;0x6a95e0610ce6b;0x33e5ee210d666;0x1];[0x1;0x785fd63a7cce7;0x1d29477c3e923;0x951efd13ba9b4;0x846d15f3bdb55;0x122e1c5ac3f16];[0x0;0x2c34e4b7a583d;0x446e43d437d68;0xf4a31e3b0457a;0x3624ac5c0ceab;0xcde8b5dcd94fb]];
 [[0xdb4dfd15e507a;0xf128a7eed7ac4;0x56d50289bbcbe;0x3ed9853765969;0xb01710f0259];[0x1;0x94976f3bdaec;0xbf7688e9abcc6;0x6a26d6b341ce2;0x5a2b1579df5f0;0xf9abc886c9c57;0x1];[0x1;0xd58e9cc36623c;0xd45bd3267b85c;0x488c9e2c445f9;0xbe76c72bd7c1a;0x164a4caae7606];[0x0;0x2d3af3076c992;0xd97ccdc426cec;0x4f405aa142ec0;0x164c951664945;0x73ce19eb4fa0]];
 [[0x4f0289bfce183;0xd5b7ab896f4c1;0x9a794724c2cd8;0x494b7adb47a98;0x535485f4c10a];[0x1;0x622b6a70026f6;0x5ae148ff6c480;0x8fe8049ccb8fc;0x39268d32a3579;0x56a9817593428;0x1];[0x1;0xc1c3c57d7ca0f;0x9f4233c2d7489;0x5c1625733fec5;0xd85a4380851a2;0x1587ab196b6f9];[0x0;0xa52205d9173ea;0x755e1f5c050e0;0x992056145b2dd;0x7cfc8a8f15cf4;0x9a5d25e686d9d]];
 [[0x21c79c460080b;0xd6a26e38a4faf;0xe5b31af1adc9a;0x5a963448258a6;0x31b62883e058];[0x1;0x286b9546a4e97;0x3e4558f638814;0x41f9d8906df59;0x14a20ae5ce349;0xa9b2f7a867f98;0x1];[0x1;0x6d2e58208b11f;0xc32560b079e89;0x2bdd9d12ed784;0x9286e28120650;0x19831e62754f2];[0x0;0x62992a8cadb87;0xa76840b3904dc;0x617ee323b1202;0xb3f9a3d350226;0x59ef9a6e49fc0]];
 [[0x540983623acb;0x5a569cabbc30d;0x910e00ae4564b;0xd17c628f87324;0x21dc353beb3b];[0x1;0xe12de78becb3b;0x643f36fbf28c4;0x5e6683d8a6887;0x132cd4dafea83;0xc0ba29288c532;0x1];[0x1;0x513af0592109f;0xa984212350614;0x4dd5b091d7574;0xdbc87790b374f;0x16b0dba4209c7];[0x0;0x9ce6f605f8c44;0xa716262aa8b12;0x69620169bc27a;0x7b81b4c4a64b8;0x30e838f00e3ec]];
 [[0x86ae23efdc5fb;0xde9a652775c47;0xd71af69abd6d0;0xf9f1dbaf58c09;0x3db467cafec9];[0x1;0xf3f30a0c08c42;0x3dd844f7245df;0xcb45223189109;0xd4fec53aae6b3;0x88c18448e97fc;0x1];[0x1;0xa0e064cccdc7f;0x39f1153b5ba28;0x6a8621e6593f2;0xd9d4330ab44a;0x1f23fec2baa79];[0x0;0xab8ac5558432a;0x14a75b844a903;0x6862965fbb761;0x256ea5201a5b3;0x6dc818c81b5c3]];
 [[0x419d87b07e941;0xe8c9286fc1632;0x349271e061d12;0xb4f1e97815dd8;0x160beeba52];[0x1;0x612b9b2cb5329;0x3ed8e958de6df;0x93bf9b901490e;0xb378333245566;0xcca2e6d13fa6;0x2];[0x1;0xed2eb46a4f1d7;0xb07b31adb32e7;0x1ea8178ee2484;0xb2c16d1ae6ab8;0x1c7e7f3122d74];[0x1;0x47b3dbea45a6e;0x443d985776cd3;0xd2090b86ef656;0xad0d8725e0334;0x121487c9e4a55]];
 [[0x576c803762aeb;0xd9c604b525496;0x377211c470ef5;0xb823fb4522357;0x7b2e79377d5f];[0x1;0x335039312ba8;0xc4ec36d1d0ce0;0x2c2823995cf1d;0x9c3e61580d16d;0x347b187337c8;0x1];[0x1;0xed6fc5e888bdf;0xc55396f8f2d06;0xa0affd54ba69b;0xc3c224ade0a15;0xf51ef61d1035];[0x0;0x6a1c72246890e;0x9ff1981d4eea1;0xea2066dc30ad8;0xd5683ba7772df;0xdea4b72231fd3]];
 [[0x1b29b4855efdb;0x288f7cc7564ae;0x9e4b0c2c539f1;0xa5036294999ae;0xcbc53cbf380];[0x1;0x1a5120debef5;0x991a121d5c178;0xccb36ed4c698d;0x7031a34afaf16;0xe8b650656f259;0x1];[0x1;0x4968c4465e93f;0x641f8eca32d4b;0xc718556259ef6;0xf2f790a037691;0x214e518f0775d];[0x1;0xf6d70f632c77e;0x843c619abb5d1;0xd46265ed5b46b;0x444b01c6b9a24;0x2709130fa380]];
 [[0xa430558757af7;0x4fdcc464e7bfe;0xc651767e26b0b;0x53c3f9648b30c;0x7e932ec5c043];[0x1;0x3086ca6819f46;0x65ed340a1356c;0xcaf9b15b2a026;0x20faba7742e8c;0xe2b321aa8ae;0x1];[0x1;0xdfecdbea2a987;0x472393c1a1a9a;0x26418b1c32b33;0x1219dcc894b4e;0x12989745d21df];[0x0;0xfee7760c83d7c;0xe2c79ed70e1da;0xe1c2fc2567af0;0x8372e9a19625b;0xfd44743a9ae45]];
 [[0x4e41b24567ecf;0x553ab6f5e130d;0xf273987b92106;0xdb1e37f3eac7e;0x2264e0f02e45];[0x1;0x6cc469359d189;0xc550216bd559;0xdfd292cb3c5c4;0x75767f4e60a09;0xca3a845e77701;0x1];[0x1;0xcca4461a9f5f7;0x2c13581e2824c;0x7841a0e5923a5;0xce3b69a21f90d;0x11880d07b9e3a];[0x0;0x9069ef079248e;0x34286d2711b4d;0x676bf29fa2851;0xe54d11e5f815e;0x41425901d33fe]];
 [[0xa1effa6f7167d;0xa10ab76998ff0;0x13a721359a985;0x1059a9866c291;0xdab4e51fcd7];[0x1;0xf5ba2cfe9305e;0xb3754db18faea;0x82cf956fdc116;0xd1f97366195d2;0xf1683f64891f1;0x1];[0x1;0x8311944c81a0f;0xf73167845eb3a;0x6d7e6ee0f190f;0x4d1061c62fcc9;0x163f9e6ecfcea];[0x0;0xaa5295f0cb998;0x66d0241614675;0xff6b40f04b4da;0x1026af220da82;0xf526fa7fb962]];
 [[0xdf9947bd7ddfd;0x3fc95d60a6194;0xc6a71d8981ea6;0x7faba97467074;0x3b9a0563d238];[0x1;0xc503044152563;0xfa92c996fd4b3;0xe45cac4c96a87;0x3ec82ab826dad;0x8eb140e6230ef;0x1];[0x1;0xe43f34f298f0f;0x6c1f9446221ac;0xbaed3bdc8f9ae;0x4f281ed0b4aba;0x1565bc27bf581];[0x0;0xab3bf8e3604a4;0x118ed7fcf1150;0x3a39fbfd614c4;0xcd5ed4e4d038a;0x6d3dc3d51704b]]]
 (V [0x16b387da6b265;0xef5d3337176d8;0x7fcba2befb8ff;0xb4dd4b8dfec1e;0x113dcf32320f] [0x9ecd87a9184d0;0x1d0a54818e700;0xc26e6cca2de7b;0x7b128a48f4de9;0x428c7d0a32f9]) [[0x205cc39d4cfbf;0x307e3f4e273c5;0xe5bc035daa65a;0x46d8ef62aceb7;0x1e8bb14812a2];[0x1;0xa1eb905944220;0x83269aa3e5ec;0xd1365107ad7d3;0x11b3bb8e728a8;0xc9da082ab00bf;0x1];[0x1;0xef4e2b8f8b3d7;0xc8540fea152fe;0x8f7f8e3fdfa1;0xb17eaa012d84;0x15e4e417d04e0];[0x0;0x61405a50c44d5;0x1d2c42c41f5cc;0xfc524fcfef79;0x57925f48a04d;0x30c18e498e0aa]]
 [((V [0xf5036ca0ea5a;0x1f28c21eefd0d;0xe57e0b6a961b0;0xec0e6e1f05ec1;0x1c8b736e9198] [0x3de4fbc41cd52;0x22d6ef6ccc07a;0x200b728483124;0x878c20059fe52;0x77dc158dcee]),[[0xb71174c4c705e;0xb0ed65649d6b2;0xbb21c4072c0d4;0xac33beed09605;0x5710e1258b2c];[0x57535492d56fc;0x22aa58e77c665;0xe2501c46f4947;0xa99e948c9a755;0x4a08b6fb7a96];[0x1;0x1a405f52aaebf;0x7ddb7c186ca05;0x87b0bfb774f79;0x2a00146256bd;0x91bee514d4a5];[0x1;0x6a268df3d7940;0xc8918d24451dd;0x27d277882c5c4;0x5fb979860d9eb;0x161abc2aece28];[0x1;0xcacff17ad5adc;0x23e7056019879;0x3fc37bf32fbec;0x1e048b6f84232;0x42d52f5d0cd7];[0x0;0x9702414feacb8;0xde403ff79c1d5;0xe2d142e8a5208;0x1d2240a33c055;0xa9d6845d97509]]);
 ((V [0x82788f3412d16;0xfe615bdc52d62;0x127b34e35cdf3;0xef24c8d8a3cb;0x374632fb49be] [0x35d4ee83b4801;0x7b09d2d325a;0xc9253fae775e;0x1b751bb6379a7;0x7e8400532f82]),[[0x4fb805e39cb4d;0xb7becb2473e88;0x1eafb78f04958;0x512970490bbed;0x7f9f3bd1d9ec];[0xe12c6015ecea6;0x554041cb4904d;0x57f708c8e7f80;0x892eceb4327d6;0x662552466e9e];[0x1;0xace64bbd5d8bc;0x12c6693a5352b;0x5d708c7367572;0xe5d4f146d2d29;0xc5ed0a1f614c];[0x1;0xd9293ea4f158c;0x2a5eb2824fe22;0x5b725955665da;0xa2de61763dac5;0x255efbe8d6a1d];[0x1;0x225165b8c48ef;0x717dc481edb5f;0x2b49d4b1d1b9c;0xa9057e430d100;0x617b72e5b420];[0x0;0x6057f474eee81;0x45728c6cc63e0;0x6702a86a01248;0x6ef395d55a81;0xf4cdca82f885a]]);
 ((V [0x14a836182e46c;0x2b4d64a61bf6;0xaf7fd3ad70ba8;0xdeceeffac61f0;0x2854f0e88119] [0x6146ff11746ea;0x26d7841482bac;0x39eaf68b03466;0xeb45aaa2375a;0x448ebbb2cf3b]),[[0xbf4687df7fbf;0xfb09e09d82866;0xd2d8e6af9ca57;0x23b74bfbb45bd;0x146f882df8ed];[0xfa0e28df43c55;0xddfd6eee83a7c;0x46a467988233a;0x7523244833739;0x1e62627d80d3];[0x1;0x9f7796817687c;0xbb4e5a9d1dfcf;0xeb799b9b73e6a;0xae9dda373bf83;0x24e64aab3720];[0x1;0x8bccdeabcf3d2;0x40dd657bf7451;0x1458c08793973;0x6876ac21436c0;0x8de894b31440];[0x1;0x759ce8cd13d7;0x5058f1f7f200;0x6b2ea8cce56c5;0x617901ca04327;0x12a7f72010ac4];[0x0;0x8e1ef084d4ae5;0x666af0268c6e5;0xf18e014fd3190;0x3ae23a1334467;0x11e9dcd5108cf]]);
 ((V [0xdde9586d089ba;0xe87757c1bf372;0x6336ba2e60e50;0x3d078b38e9c09;0x18ef4cd999cc] [0x2ec24a57b0d81;0xa9235731b2b56;0xacc70add010a0;0xc357fa344d169;0x42ce3273546f]),[[0xbfb722e9f34dd;0x626f085bdbcd5;0x36a12d1f917e1;0xaa1b7071e3774;0x4032c697013];[0xe524bd23a36b4;0x56ef189beacc8;0x43be4f8451278;0x71f17239f6d18;0x3abcbd2686a6];[0x1;0x6d9ec964b9bf0;0x3c576711c89e3;0xc79783da75ee0;0xbc379b565c459;0x68c42b5dc609];[0x1;0x1e9e1fe1a615c;0x3210195371c1c;0x4149e33c73c4;0x8b12f541fb2fc;0x15c201ce81b4b];[0x1;0x4d7977840064f;0xb4ce95fadb617;0xc403b970b80c1;0xa5d55eb429670;0xd3122a7a7ca4];[0x1;0x65763ec9f2e49;0xd72cecc777409;0x96d226512a229;0xdcd9087b97068;0x89d593dae5f7]])]
 [[0x6aa61f6f37249;0xd1df354dcbb33;0xf0ee7e9d3080c;0xe83da277e7940;0x2fc393c425c6];[0x3dc2af31e4ed4;0xb182e36d64c71;0x27e36e8f23df5;0xf50005fe6487c;0x1a246a3c3bab];[0x1;0xae635c625993c;0xa23d3ff4fe8e3;0xf1f4b6f65483;0x23da95d81e2e1;0x2f6d5845b2ed];[0x1;0xe435a20bdf29e;0xbbe3412b61656;0x8e15d107eed13;0x295e7e96338f5;0x6afee9dca1d6];[0x1;0x8ee96c8cb6707;0xed961d1f08abb;0x6c6ec6e6b8846;0xb4eea95dcc95a;0xed9010a44b31];[0x0;0xde239a6c20f4b;0x222b57db31eb4;0xa60e2fd58118;0xb1a4f863206dd;0x555db80a02e31]].
Definition wit_B_64_22 : colwit ipt wit := mk_colwit (V [0xcbf802e512989;0x48015bce82556;0x5b7a0af232038;0xee51a4f80ad07;0x44f3b17c71e0] [0xc3d86fb33bccf;0xdf41506a02e46;0x97565bf3928c1;0x167ce8daa87a4;0x752a855bda63])
 [[0x9f33263023861;0xc844f836e0e61;0x33b6aeaa914c;0x8c1a0ef005919;0x2342d5cf81cc];[0x8178436e8bb05;0xe7659b45f23d9;0xff35af227b25d;0xab9a4f6eec0e5;0x5ee421d35a59];[0x1;0xcec03b85829c0;0xd508f97eb8d3c;0x69f8ba41b55bf;0xa2bb85fa9c3af;0x8e7740fa01a2];[0x1;0xe28d9e628c9c0;0xd3d549602648c;0x3218b935e1435;0xb90bbc8e99c23;0x229a48933ed8b];[0x1;0x48614d6030597;0x10b7ee3022a8e;0x79511514b15ae;0x7a35620a70517;0x1b77c04532d91];[0x0;0x7423cfc0d21a8;0xfb22cbf56141a;0xf0d54bddf7e01;0xe572c06bc4c27;0x36ab85f14b6be]]
 [[[0xe3ec8f4514341;0x93d55018a2eba;0xa2fe66858bb47;0x49196b9e503fb;0x695f453f6cb9];[0x1;0x4aa4be1c2ade6;0xebe08dedd0504;0xfee066372bc0f;0xbc0bde4c15e7e;0x42358f7296ff7;0x1];[0x1;0xc739c55731dd7;0x7f4be32b37769;0x9cfed43c3aafb;0x3613b8c8eae70;0x160af9dce4158];[0x0;0x97b8119cf1345;0x6fc622710d9a6;0x644c77aa83a43;0x371784d763c59;0xd04cfe9f190a7]];
 [[0x123b62d3f216f;0xa90eedb937e55;0xfe9f9fff29bf8;0x1705f70dab341;0x52f8a76f4d7a];[0x1;0xaa06a8e032b5e;0x2291573ef856e;0x4635a3978fbd6;0xd1ebd0d778171;0x6df61c18e91f9;0x1];[0x1;0x63989f3428537;0x881b204af57bf;0x4276112c09229;0xf8c974a846a8c;0x16eeafb127318];[0x0;0x7e1f955ba62e7;0xcfaff6ab95c97;0x7de1f5b7d086c;0x447811099f989;0x99f8937550bd2]];
 [[0xc7370c1304e45;0x8e176ffa2f490;0x3648dd47dfcbd;0xdefb8bb51caac;0x443ac68a7bc8];[0x1;0x938c897055e82;0x55956961a81f9;0xb3d03dd643123;0xf6c50367041d6;0x8648dab1e9d1e;0x1];[0x1;0xd685b53781dff;0x35ece0dd052e4;0xb2500a3b3d7d;0x8582bdb8b801;0x169ab549feafb];[0x0;0x441c909d0b113;0x8ffa0116f929c;0xf652754fc03d5;0xddc5e69ed2c0d;0x7f28f012d2965]];
 [[0x5f99a7bb80977;0xe991e0218ef00;0xfb72debaff5db;0xa70c5bb489c00;0x4ec4f6b8014f];[0x1;0x92956d771419c;0x4e3b759c293bc;0x43476e71b5984;0xf7e5ca1280464;0x79bb17e72cad4;0x1];[0x1;0x6ae60cc53b687;0xfd8d94805c2c1;0xb89ae2349a20d;0x2edefa5963fb1;0x18f4ab3f63bc4];[0x0;0xee6dd6953883e;0x5a8f087808b0c;0xa8765e8e788bd;0xd75429ee0b634;0x8fa997c97bdc5]];
 [[0xdd7d7160ad549;0xb99a21a7583a9;0x6993c54ce2af0;0xf4bfbd44d9b29;0x92153cb238d];[0x1;0x381aaa7e82e8b;0xc2d4feb30bdfb;0xaeb4f45a7b9f6;0xecc98ccb460ec;0xfc83af123b64d;0x1];[0x1;0xb6f4fcc408107;0x2edc5b6b7ef09;0xe4f8c284fab75;0x8e37a549c64bd;0x1f6adddc586f7];[0x1;0x51aa3d7971039;0x65f0fa8932a14;0x66e667a45007b;0xce052398f41a7;0x5e9b89f53e51]];
 [[0xf77fdafa17ed5;0xa34c3ca43d582;0x6a1065cf1af5f;0x80f8f2eec22ca;0x5f5b5c44aad5];[0x1;0x709613e1405e9;0xe2f868ae7b493;0x2543a533586e8;0x3502377da16ec;0x519245bf9bafb;0x1];[0x1;0xb9d054ba6665f;0xf3bcfc501e44e;0xecf6276a6a27e;0x23d64b2e9915;0x1c525208906eb];[0x0;0x316f848767c0b;0x8942a8b8eb42c;0x137864aca9bdb;0x6258ec618f1f9;0xac3a8c9b9b8d3]];
 [[0x93e7188d95982;0xffba4dbc124c5;0x57d9910e6a185;0xc9115cf80696e;0x4684acac0e05];[0x1;0xc85542cc8ad8e;0x210f57b68ed07;0x5c31518eb9cc4;0x61ca7b12ea62;0x7ff9e5528bf39;0x1];[0x1;0xbf2cd1534b5c;0xe2f372e3bf4a5;0x88cc57ccec6f2;0x860e05d30b2ec;0x17bbf22d7f424];[0x0;0xf25ab5796b312;0x9392d1a4654fa;0xffc4a47cc6214;0x983c8bc528ecd;0x792ce84211e9d]];
 [[0x66e3ef1a91420;0xcc31665baf694;0xaf0118d9d67f8;0xf73dd2dd4d1d4;0x4621ceb7f08d];[0x1;0xb19ed444947e0;0x88d66da6c595c;0x42dcf48abea97;0xa9be2cd917098;0x80bbcd68a572d;0x1];[0x1;0x35a7da7445c00;0xd84d13fec9a27;0x4a46a4b1a2be8;0x25f5fabfc3ff2;0x170d03a33cd3f];[0x0;0x8a1e3ee9f1940;0x962a27cbecca4;0x75316388fe5ba;0x324822a27c78d;0x789a0a35c7848]];
 [[0x7355ce07844b0;0x2a56d5bce85c9;0x15e57b7b78664;0x72fa8b1d58a32;0x7840f3c317cd];[0x1;0x472b014cb6920;0x1fc3dd3ee4fd1;0x8fed45d3472f5;0x4e27eaa2e9336;0x1e8c67e5c6052;0x1];[0x1;0x622b1b7179f00;0x100e624a501a6;0xdff6551d8478c;0x2dbe0d17c4920;0x1b0ce391b7453];[0x0;0x401b225d19920;0xc9b78a0bee740;0xa3900dc99301e;0x5488aca007be4;0xe9a0391145828]];
 [[0xc7315ec4c8aa3;0xd3658e7b2f269;0x42ee5ba0a5b19;0xa5a6e2284f794;0x1b889805f83e];[0x1;0x1eb66cf466403;0xc0205c6675d0;0xcd3d621865b0a;0xf9293f30d49f;0xe232c758390d9;0x1];[0x1;0x3b48ea06a614f;0x151f89813be4f;0xec29d841f9228;0xa8744c038d1b8;0x161ab9d63d134];[0x0;0x4f04e061f849e;0x10815c7c3bb83;0x5a55b1874cdb4;0x3e23e364c0080;0x2bf5a6b273aa6]];
 [[0x6bc0f11198d3e;0x7eaadbd6e89e0;0xee72bfb8f83ec;0xfc578383029c0;0x6498bef1a78d];[0x1;0xf0f61f0b70910;0xf75e6c5fd90a1;0xedb54598f80fd;0x8abbf2683580e;0x41fe5a15a1d39;0x1];[0x1;0x24ebe4ea7ce5c;0x6c780c80be5bf;0x8efea957e2abb;0xf7e97076f2aa0;0xfd9b05b438f2];[0x0;0x21453f945c414;0x944153497aa07;0xcbeacf8fb365;0xc8a14d059ae92;0xb5d1634df7e9e]];
 [[0x862412dfbc7f0;0x9ea02cfab27fd;0xaf2a1baa51d54;0x81f5fa24011d1;0x5c3646407c62];[0x1;0x794f6536029d0;0xac948b32b53bc;0xfa73bd16fb100;0xa5f569eab28a4;0x562ce66bcf216;0x1];[0x1;0x93664d4195700;0x658fd4f081f5c;0xab76a5ea8b74b;0x456fdc3670576;0x1cc037aca1714];[0x0;0xb0b871c710470;0x8c1dad12d4376;0xead3f848d251d;0xc907c5f02e32;0xa5f8e64a18d1e]];
 [[0xa687d1db5deca;0x2f92e2644f1d3;0x612c13b51c757;0xf3ad0fd5b4ee4;0x2504a75457a0];[0x1;0xe39c0c3eb6e2e;0xddcf320cdd92d;0x138019217f561;0x51d5346d50f86;0xc670d0633ded5;0x1];[0x1;0x23e84f724f2fc;0xc161df0e0f552;0x2fad18e4858bd;0xf1dbc972f140b;0x17259148243d5];[0x0;0x3fdffe47c78de;0x16af765d158c4;0x62b30be311da6;0xa572fc244c413;0x3689d4a25b077]];
 [[0x48205c43e229c;0xd4dbd58ce6db7;0xc29078ec70be;0xe679300b5dd98;0x6edd7ad5026f];[0x1;0x962328a4954fc;0x554a7da07ac79;0x4428ad30a061b;0xbed2884a12a4d;0x2c7965acb18d7;0x1];[0x1;0xd2986550de70;0xcebf3910865e4;0xa5a0b6ee84606;0xca61518bbd2b3;0xd9532a3a3737];[0x0;0x511cf5d10151c;0xa1b8407901f41;0x4902a85bbcfd6;0xdd7c2427ddda8;0xc8911c14cbb56]];
 [[0xcbd015afec9f0;0xa7d8ef160004b;0x97b19902f4051;0x69b96a61520a5;0x58687ed6bffe];[0x1;0x44217f3236370;0x1ce65c2dea0e1;0x14c91ec47c05a;0xeb21be06bab3e;0x59a1cf1e7b37a;0x1];[0x1;0x24be13e9f9700;0x3a01b35e8e89;0x3850a85c06c2;0x6c0df32583def;0x1230bfe0d09ce];[0x0;0xfc67de166add0;0x2bb35828b6179;0xce21690d8b7c4;0x88a8303b67fe7;0x9a98f0d35c09c]]]
 (V [0xb41ac067e5c83;0x10e853008f780;0xe6f8ff0f8cde8;0x70371751228d3;0x24cd8131eff] [0x917e1c3296e2b;0x111e30d42cd1a;0x64f17ec1ff55b;0x6991208666fc2;0x6e9518706104]) [[0xd2b699f44ac8b;0x5b093e933e1a2;0x1c6752936ba98;0x35652b83169cc;0x44d2f288a67f];[0x1;0xf89bf08ed9e00;0x9c3044a81840f;0x130f1151402bd;0x331fe5c428448;0x75f337b235297;0x1];[0x1;0x51adc74a0561f;0x2f8ae7faef70f;0xc1364f36d5f4c;0x677a330407573;0xc96c39da02a1];[0x0;0xf2ac864a6b0b5;0x3bdcf51c4ae6c;0x8679e67a9bceb;0x71be20c410bff;0x73005ab0f96d0]]
 [((V [0x5be085012840c;0xeb615c32aee7c;0x618ed6dad29bd;0xb1a7c5c5d52d9;0x5d0dfd4ba470] [0xdedf350593b69;0x5eaf058449e92;0xa28abdcc94bfd;0xc6b082c8d3701;0x39643ae915bc]),[[0x65bcde5c9250f;0x7ca97f7e94bb6;0x3eb6f994db72e;0x28b21a46635cd;0x2a4eb4975ac3];[0x86536b1636771;0x751e749cf45ec;0x10bb4cb04340e;0x80112d0877758;0x3527865f0bbf];[0x1;0x96f72f672980f;0x6d722cc8940e7;0xee763f89914eb;0xa9d209d9bc157;0x6a4477db7b11];[0x1;0xb64eb4a514466;0x1f0cbfc0ceb22;0x47db85e71570;0x44c86e7b83b59;0xf5d35071e487];[0x1;0x42bdb9d67fe77;0x168437fde334c;0xba87cfa163dd2;0x1160273d74ada;0xb55383fb5a0e];[0x0;0xe2bce0f114350;0x9addb600584e5;0x4ecda23e896e9;0xd25b7e209ba68;0x4063372db9edf]]);
 ((V [0x2885171e48ea7;0x6009a70ccbac5;0x4db9634e90718;0xcc68090034ca7;0x4a3006765b5] [0x36f1c2273af12;0x73dbf231c8f74;0xdc8c6c4e938e7;0x1ac8f678cb199;0x2920b07e3405]),[[0xfded8d7afc189;0x1de73e47b657d;0xd5d87c4c94070;0x9550466a558f2;0x3cbea2a5b57f];[0x20a44e4df8696;0x5b18881097af;0xe29e8d9f422cc;0xab887b12b27e8;0x579bcda06a23];[0x1;0x1c08642f850f0;0x79cb5cd0d5834;0x76f2d819accee;0xfb440f112a23f;0x6b9145a780b8];[0x1;0x66a8e3489e94e;0x689aa26bf719;0xb51fdf1ae4a2b;0xc3283c9a50c6d;0x1d72de71ec634];[0x1;0xd846a22e78087;0x2fd0a5967ceb9;0x32ff9f4d5c3ab;0xa6bec0878bc25;0x160aa21965867];[0x0;0xa8bbb4ad90e3e;0x88e0d9cdab0a8;0x59a9c921a0249;0x7dcb5c690d45f;0x7397ef642117d]]);
 ((V [0x6b78cf9697c67;0xe623c20d8affc;0xeb393c0d75ae1;0x70453c70d0eaa;0xc629f1a7bca] [0x32040a5bb0567;0x72a39c69b9cec;0x9f8fc2816f8c5;0x8ae056a177884;0x4b0c84bc59b9]),[[0x6df67c5e0d93c;0xb47409b9d40c3;0x7054e0ece2588;0x1d48b36172f79;0x320b07a1e41f];[0x76fd0a99a286c;0xf97ead7c3fa76;0xb34a97b816543;0xce46314cdc564;0x5fa27f69a251];[0x1;0x408f29c6419e7;0x3d3189201991d;0x44b4b58fdd8b0;0xe13b47abe8a17;0xbf19ff39c6f0];[0x1;0x6b93ea210f210;0x861ca8ae73ba6;0xdd7c213126717;0xa9438275e5960;0x21da65c114373];[0x1;0x5f35d9494cf70;0xe547466b3d686;0x19df3bb2e4afc;0xc3bec370008e;0x17c0a0e8c3ec];[0x0;0x1539d9a561fbc;0xc3e3261f086f6;0x3d903d641b598;0xe7efe206dc38a;0x5880a0c7d6cfe]]);
 ((V [0xf83255d374e8a;0x7801bf7ac5a97;0x60e2dbba6654f;0x7101408f6b23c;0x559ce2c7e573] [0xb11b309a7e7d3;0xd315f86e8ac20;0xb05b87f02975e;0x8814a11cf7670;0x1e5ba90d1519]),[[0x7cf591e895296;0x842ea4f60847;0xa90bb66cf7546;0xfeec6ac88447c;0xa59a1ebb04c];[0xe6af2606c18f;0x808800679eb8d;0x576319babc22b;0x52aeb744ac090;0x616b943019ef];[0x1;0xbb81b235a0567;0x543494849cd55;0xca665cb393cf;0x514ed84db5ed8;0xc1a45e8ed657];[0x1;0xc5b62bff1cd2c;0x649db3b54387f;0xbb79f4014b6ef;0x403d66de685c7;0x23c62691ab90c];[0x1;0x5e9bc6c38e67c;0x5ab32afc4026;0xc49d465b02bfc;0xd6b40297925bb;0xdbee01e8edee];[0x0;0x63c1daa2afb84;0x59a77b56ab33;0xe2b55492c6e7a;0x823a930c1e2d0;0x7cd1af60227d]])]
 [[0x6bed8815699d5;0x113534660051d;0x62758295006f2;0xe458a72ee5272;0x6d897e35cc86];[0xa103a13e268b5;0x915f549c5b56b;0xc8252a0ef8e22;0xc205a01b312b;0x5e6ad8dbcd60];[0x1;0xcc44b058c4ffc;0x6342fbb1f4957;0x17a34466637ca;0x625ae1e849efb;0x8392943bc4f8];[0x1;0x8afc7f5966732;0xaba587174c48c;0xcb5e3be89a9be;0xbae3b234a4bc0;0x2028bc128ae91];[0x1;0x6f0d37c84485f;0xc7f251fba517a;0x8a4863b480680;0x498bf1b7164eb;0x17574289d310c];[0x0;0x42c523a16e0eb;0xaa906a1017ef4;0x5a83d0807af8;0x1b1cab3c136c;0xdc3b377392306]].
Definition wit_B_64_23 : colwit ipt wit := mk_colwit (V [0xb7d84fac9bf41;0xef1841e30a506;0x32afcc23a31e6;0x46959f05409c0;0x4d31c08c52bd] [0x5d74fedc6cad4;0x9b7a3bda3aa31;0x52570d21cd049;0xbe6886c099958;0x279d0331f73c])
 [[0xcdc3d00c0eb12;0x1fff441365275;0x4f98f7173ece8;0xa9a63ea1bed3c;0x5443b3982b38];[0xd7d6f5dbf7fca;0x23d51d26759ee;0x98ee47b494b19;0x441981a7ad1c7;0xa13729e5b1b];[0x0;0x415e4ee99ed90;0x528827cd179d1;0x49244cc6f315d;0xac1831a19d8c6;0xa3d196c496d];[0x1;0x16ec1c13cbfb8;0xafe9a68662ce1;0x22a34ecaa0c32;0x4050fa87a4c1c;0x1b690c03e3a1];[0x1;0xa5ddd3c22621c;0x44ba6a8278508;0x9f73cb3040fe2;0xca50263f3a4fe;0x15c6539d5b3d6];[0x0;0x52f61825974a8;0xab9c6529fc8b0;0x7d9c691f8d55b;0x61a0521295058;0xa518b58d0eb91]]
 [[[0xa93d02d520904;0x4dde10fa3d796;0x72c83450c3b72;0x2e4e0685adaf;0x63ccd9492742];[0x1;0x9d4027d859bc8;0xd8b2bf74c51d2;0x1e882cce1bddc;0x111b965e76a09;0x434109e1b6682;0x1];[0x1;0xe9c715b96fd70;0x9d298fc60ef27;0xdbfba9f13cb60;0x245686534f802;0x166cc02e6f115];[0x0;0x1a270603922c4;0x3499263f0a618;0x9da70c5c532d6;0x8e4a50cc495f3;0xc752eac0caef2]];
 [[0xee77a66299853;0xd5ac4fc46d90f;0xd7b00be12166e;0x499030a0c4dc1;0x2323191c0bc3];[0x1;0x6f3ca8ca5cf06;0xa855246bfbdf6;0x189e3443edb5e;0x8c93c8085ed8d;0xc9edd3473d125;0x1];[0x1;0xa0f884b34d2f;0x8dc829416449;0x7b151d9dad87b;0xc9d3e9f0c35e;0x1c403d4ef6428];[0x0;0x865849b01c539;0x5fef7f99e1431;0x566657679d0c4;0x4acb9776da7f7;0x4143dcc5b160b]];
 [[0xafaf7edf606c5;0xc4b0b13a40214;0x5518675560f91;0xfc1ee737f0ed0;0x36fd6321640f];[0x1;0x7c35bb7977780;0x204e262e2b091;0xd4ad57af29f32;0x76dc89a90d9d9;0x9ec7fee6daba0;0x1];[0x1;0x638bbe1daa0ff;0xf58d29e543491;0xd4ad2e92c2655;0x910cf1077ea5;0x164116610d68a];[0x0;0x186fbe533d70;0xce6a274a294c0;0x6e55ad5c477ce;0x9d184f2098f24;0x62baf36520197]];
 [[0x5ecef055c1e16;0x7d1e13804c60f;0xd49988f838944;0x3a0f4ca2d6e5c;0x77ce42cad597];[0x1;0x17a81c4c81eb6;0xf1c4e91f03496;0xe11c42de0f8c8;0xce5b33b577dba;0x108de17be0148;0x1];[0x1;0x4072fc1401c7c;0x7e6ae18799341;0xa646c8b128492;0x5811da1d658e1;0xb3bdbc3b58dc];[0x0;0x8f36a1c6e4804;0x64ad4611d7de6;0x8c254b6924645;0xe85c780f76712;0xe62c699f1b3ac]];
 [[0x6e999fbc0a9f1;0x104bf1f489e39;0xd55a5ca0d0003;0x274b8d9e2f6e5;0x5281c55ba86f];[0x1;0x99940b16b990c;0xee8c71df4045c;0x6b116d4dc9ad1;0xe99c093a2fec2;0x6296c7bce8f06;0x1];[0x1;0x39b17b5b49077;0x5828ad5d9dba7;0xfac85bb1be56f;0xc8ef7168e5e9b;0x174233a0c3293];[0x0;0x5c80d35976f59;0x851a5b55385e1;0xe388b3bdcc37b;0xc50b8a6ddca72;0xa02a62317b082]];
 [[0x32d72478748a3;0x3af81357a8a5e;0x6308c60134fbf;0xd385927af494d;0x7ed3f97c004f];[0x1;0x38e6a943f808c;0xa5fea1a5b384b;0x5ea4ed704846c;0xcf7256815b41e;0x105849a3ce6e0;0x1];[0x1;0xf963dae8c4d4f;0xf44b4d63e1631;0x9a03c922a11bf;0x720ba201f2d7d;0x1e69f74037949];[0x0;0x550fe8fbc385f;0x538b23691353d;0xc9e22ca1688eb;0x6c195d03f25e4;0xfd40637f5e33f]];
 [[0xc18ca75246f66;0xcac8ce9ad40b5;0x1f7b193c1f7db;0x1b807b6640ee4;0x4baf4b21979d];[0x1;0xb5b60edb84c60;0x9f6047e8f7b9c;0xc6c86d8893b3c;0x33e4308934e0a;0x743836b85168d;0x1];[0x1;0x1c1d363e11bbc;0xa98a61476e5b1;0x1b5d345a5d6ab;0x7517a86a644bd;0x20dae609acac3];[0x0;0xfd1a30a407e50;0x1a7b3c63b4f94;0x79b71315f2854;0x7d43080ba5b5a;0x9459e623a956b]];
 [[0x1a979055e43c4;0xff3bcbe8aa5ef;0x2d98166e0353a;0xc6008603dc703;0x1a3b2c1c497e];[0x1;0xbb7048e9fc9a4;0xdaa657ef79209;0x1a8bdaaaadf3b;0xbeca735cc24af;0xdc0cc60fa8627;0x1];[0x1;0x4fcee68072770;0xc66e1585f232f;0xa19f830b97d3a;0xbf1129f6e93e9;0x190f8e3248df4];[0x0;0xd87365c6b40e4;0x9d717eb8d9b88;0x7be5674847ff9;0xdaf41435a2f62;0x28adc4ad86971]];
 [[0x341f099d770ce;0xfaddcd4bb5d9e;0x91b48f99925cf;0x5899517440e81;0x770849eccd0b];[0x1;0x323845320372e;0xf540e945ee7b5;0x54119e067086c;0x309d6925265;0x125bd09f5dc64;0x1];[0x1;0x8afa3e359f59c;0x41e1ad0942881;0xeb500fc54a3e8;0x6916fd76a95fb;0x114aceda60327];[0x0;0xdd3e528535ca0;0x6bafe83ecf383;0x43b18d6b174bd;0x89aed1aa2dc5b;0xd8c6c63649ec5]];
 [[0xa7714976851d3;0x70b1852e2bcea;0x61d4544b39a44;0x25822557efc4;0x21c52b723db5];[0x1;0xe0225af12e066;0x9019d4aed77a9;0xcfce859b04565;0xfb6fe55059c9c;0xbf6d7e2df9451;0x1];[0x1;0xce08d230bdc2f;0x606513ea8840a;0xa82fc60d71f55;0xea999dd9ba697;0x1278cdaa5a7e8];[0x0;0xa12566ccf84df;0x3d8e5da40c0e6;0xd125e1bb0bee2;0xd36c210f899b9;0x2ce2da891be2e]];
 [[0x23addb38292c5;0x687eb14b53ab8;0xd9dc07b3c99cd;0x90ff4ff235b2b;0x1f5e1596807c];[0x1;0xe02a94e56a16;0xd784dc7550102;0x5b9cbc8a2dd31;0xf5619fa2323e1;0xc8f0a65295c90;0x1];[0x1;0x17f0b82fc68ff;0xaac06eb005194;0xa37f29bc4d564;0x90d8e4b41c41b;0x148594d9ca848];[0x0;0xd954e223c6eee;0x3ade7df8f9e3c;0xa69f328b11d06;0x76a518b68e7a1;0x32441893e6b7d]];
 [[0x57eeceffa6bf6;0x83efeab61734b;0x3a1d6c68ae872;0x1ee44d7f97405;0x551808651333];[0x1;0x81674e3340066;0xda25fd02bcec2;0x5962aeb03d5db;0xdd5c78b82474e;0x630d3dfbd659f;0x1];[0x1;0x4d66cbdd8f1fc;0x76d12d311bba4;0x56bfca2576ec6;0x2c1229e3cab83;0x1af89b2356349];[0x0;0x3196a90d4d400;0x50453a0eb2f6a;0x4163fd9882832;0xa373291e612c5;0xa29ff71043eb1]];
 [[0xabf1072f6f827;0x3c3c70cf900bb;0x38b26ba0de227;0xf10367de804f2;0x52f65118e83b];[0x1;0x9e54d824c3046;0x5476d29f54120;0xc894d902cac6;0x370b33af4c9d8;0x5f56f93830d38;0x1];[0x1;0x7ab0e3298ece7;0xfa61d0b785397;0xe8ce28ab835c;0x57d564bb0e9b5;0x14d999ddf6944];[0x0;0xa9c03a1859dbc;0x7866d32f465d5;0xa57da2c376886;0x7ccff02f3f61b;0xa03c762ad8d80]];
 [[0x6454df86357fc;0x133f095e84979;0xd44d782cc39e7;0x6bc4714fbffd5;0x5fab0938af66];[0x1;0xb1e60dfd11e4;0xa37bddaba19cc;0xdc2b4de10bdf6;0x5bf7a83881edc;0x4bf9cd0df0257;0x1];[0x1;0x3d09412f04570;0x1b1c21fad32bf;0xc5c9bad36c0ce;0xa6ddb31e39d6f;0x152e3403be6a9];[0x0;0xf392319db56c4;0x7361bbe58e984;0x6624a4c48e4d;0x93a838e7d811e;0xbed9ec13dbc3d]];
 [[0x2899ba4de38b6;0xa996ff1f65b5c;0xca67aa30c2a68;0x94f7820a4871c;0x1492c88e218f];[0x1;0xec68fa2e6ad46;0x193cd50d58619;0xbbe9f72944ddb;0x1fa19fcdc493c;0xe85bb14d41176;0x1];[0x1;0xcb9ac7f0a38fc;0x5c08022b9672e;0xcbf7c56a0a07a;0xd66a7fe06fc58;0x1aa2b2f0bcc57];[0x0;0xe578d977894d6;0xfc39427170e6d;0x4714822b24e1e;0x8d83c86ea4977;0x20eef566c0841]]]
 (V [0xe87199ec24b88;0xf3f84861594c2;0x2eb08e3201bde;0x354bfeb969804;0x72a18b0f3dcf] [0xcc6b50eadd4d2;0x392e5eba708c8;0xb68f790f2406f;0xe2f8618f4342;0x6e35dc2222ee]) [[0xff5d73aac73e6;0x33ebfe09918fe;0x9ece4d921ee13;0xc9d05a8b1d69d;0x1003477051e0];[0x1;0xdda16d64df784;0xd41cdfb547b12;0xafadeb6164e3e;0x60768ccc29d80;0xea62a1f006f67;0x1];[0x1;0xdaa77c86bd5bc;0xb33a5313d138f;0x14f51e41c939c;0x27b7d5d3ab9af;0x1c20aee4877ea];[0x0;0x77ddc25ab3288;0xf8215bbee12f7;0x5c8c15f902e31;0x56c43d478cef1;0xb1dab3561310]]
 [((V [0x30be96c7fa0bc;0x8822fd770d1f5;0xbee84cf53eb33;0xb272f45525ba7;0x164e02cda8d8] [0xfa19de36fdb01;0x7862383d3ba5;0x48d77f6ea2e08;0x3b19356040d2e;0x6f9ee2b2382d]),[[0xc34e843513053;0x865fc0fa255e3;0x174430c636ad8;0xd1a4dd3b94e16;0x7531c1b9a2a0];[0x52b9bb1a6d9df;0xb252fc59a3c7a;0x4da2b53e1930a;0x55c3d718a123;0x7e32388db003];[0x1;0xdd3a8950a5dc0;0x8287ecfaff2fe;0x7c57db2e0515;0x5a7867d1ac854;0x95bbe587d082];[0x1;0xe6548664beef4;0x7f5c359d700da;0x59c92420bde7;0xa714509a925be;0x22b5d2e0d167f];[0x1;0xd1db217183d2f;0xa09269ecc1666;0x1ae3973367fb;0xdc0e1d329b3e1;0x18bd52859744c];[0x0;0xd3d8b20e6ee77;0xed73c1ef8ddf9;0xacda159ea35e9;0x5721277cd4d52;0xdb448b9873544]]);
 ((V [0xcfdef3c301f5e;0xea9b4724b2a9e;0xe563441e2e7ac;0x946c61f74acde;0x4450251bf823] [0xcdac3c11142c3;0xe4bd0ff0c944d;0x56a3a7150fb1;0xcd3f6c898bff;0x46e1cf606cea]),[[0xd06f050fe6ed;0x9b7c2ca2b1101;0xea1bba67458a3;0x8ab1ea3c6c89b;0x6ef85a682f30];[0x75f760f91c8f8;0x2120ea8ba6963;0xdf5c63f12af73;0xb662267115f5a;0x1e5bd22492ec];[0x1;0x8473ab43b6b70;0x34c75b5a134b3;0xdff95bde1fccc;0x6f9cd261ac0af;0x38d4a3c70919];[0x0;0x48dbbdb2708ea;0xd375a7c7e8008;0x816645de19b43;0x7eb01f0e231de;0xb634e2274e3];[0x1;0x74fb267578caf;0xb6281c6c3c182;0x86f15364cb5fc;0xd10055ee5d0f9;0x81a3982ceefc];[0x0;0xfd3e0d5edea83;0xec2f4e51624ac;0x4e035cd01f39c;0x2b2bb9a4d5490;0xcb91f292c1464]]);
 ((V [0x655a0539deee8;0x2ec4d7d78dd2a;0x81a03a0300083;0x6b0d9aeba257d;0x4149a11377fd] [0xd4647169e8ea6;0x768ccbdfe897f;0xcadcfa2d0b044;0x87e03134a7472;0x4c1c68627cc4]),[[0x4ea8a52237109;0x9bf316858f530;0x87abbd3e38aad;0x38fb3ea907227;0x57455e294594];[0x4620f2ba9dc91;0x135fa1cefdc5a;0x60ec6b5019684;0x6bbaf46677aee;0xe239727460b];[0x0;0x8599dd402c924;0x94bdfeea1d7b2;0x11965f4104a63;0x5447e89f749ea;0x82e2b4d9947];[0x0;0x3149983d96126;0x7372f54fdcb05;0x3bd1c4b8969ca;0x2601233b51aef;0xbd23eb8620d];[0x1;0xfe305df4e5187;0x866b3eb4a4356;0x7ec030a81f0a9;0xfb09592f1de9b;0x1585364feec2f];[0x0;0x290ba4640f3f;0x5ca662d9e910c;0x8ea22bcd56bf0;0xc08e97ba04973;0xa1c04c546db1e]]);
 ((V [0xa4c59715bb841;0xf4659a3f40338;0xd7bbbac7f6017;0x3ed2c9bb7bebb;0x58aa54ed2e8c] [0x78f8a9b104a40;0xd99c9b0150c5e;0x3ac384e3c9ad4;0xec34ff58906a4;0xf4ab5774d8]),[[0x4b3b4a0d9afe;0xe887008171c54;0x7db9dda3c55ca;0x8568b34044351;0xd420b010685];[0xbd9f4567673a2;0x628c1e6d90c07;0xacdb7fb459133;0xd4963d96d321e;0x30c432775aa3];[0x1;0x9b43baa7b13c0;0x82928692ac3b8;0x8360b18def7e7;0x6e94fd4c7613d;0x403b72fc6a82];[0x1;0x39cefc6ff3258;0xd1a9a7c5af566;0x24748e1540d7e;0x62ca594af89b0;0x114d4df365eca];[0x1;0xd0eac9e722d5c;0x1732e35941c00;0x99dac47f91d67;0x23f0196a74da4;0x1b51ba1d8adba];[0x0;0x563e5cd96d540;0xf1e64b10e1a87;0x976b6fdeacb95;0x9e831f7acf644;0x118f5618a9bc7]])]
 [[0xa58a42981a3db;0xd57cd33e03ae5;0x629e3f75e8d23;0x9716bc7bad70d;0x7dd60c173ce6];[0xbf89f5d746f0f;0xaa131ee7eb25f;0x6b9a0c2ea1668;0x6f5f12025398a;0x4dab340dc4bf];[0x1;0xf7042255123d7;0xbd9d80bea9729;0x4dfe764bd46a8;0x5f3eec004ea1d;0x5deb50ab9b21];[0x1;0x23813ed6ba80;0xc7d65c4ec1b70;0x2639cca4168d5;0x6e0b12db41915;0x1d0222760a6df];[0x1;0x3b5709505313f;0xc61db79beef25;0x7907ce5487311;0xc6af3bc7ef35b;0x1c68d04a39aa3];[0x0;0x66f05eab1dfce;0xaf0d434ab6233;0x20493df78bf4f;0xdbe6f0f440379;0xff60d64a16dc6]].
Definition wit_B_64_24 : colwit ipt wit := mk_colwit (V [0x38aa45fe7bd68;0xac2d75de531e5;0x4b8284d1fb63c;0x58addb8a05de6;0x4c4e69af5c7b] [0x9989210ad157f;0x70bbe07979053;0x6fe7d91fb6917;0x96dbd5b0a5421;0x1e0abab4caf4])
 [[0xeab341cfe7e05;0x11333ef61192e;0x8bbfe225c1fea;0xd0e20c4036993;0xa26c7ebc7d7];[0xc3a5f6eedfc08;0x7dbc9c45e9488;0x92ea7e6f14e77;0xf13cf0e0a7aa;0x704b80322279];[0x1;0xe677797ad7000;0xd2cdb67fc1369;0xb1f5d7a0df639;0xac6d51a89b737;0x7ef0ea0e2243];[0x1;0xe0ab69531524c;0x130e6b45e5e7a;0xa58b77aabf466;0x3228b040490f4;0x29e729a7029ca];[0x1;0x9103b02fbf47f;0x3c0b6a0f9f3d8;0xb9331d1e3dd73;0xd732275ab85dd;0x25701055b59f7];[0x0;0xac88c4229a99d;0xd4218a1475b65;0xa9a1661bdd73b;0xefd41c24109a9;0xebd838ba8ec4]]
 [[[0x20e4f7e31359d;0x6c000b69a2cf;0x5411d2d87ce4d;0x141aa8dd832f7;0x6420d5e5a13c];[0x1;0x85b72536dc3fb;0x9684314d5d0ac;0x624fbc051da80;0xc407fe81f87a5;0x445badabddde2;0x1];[0x1;0x26287f7939ecf;0xa2339f52a1de3;0x2670c93953dd6;0x4161e4b227e2;0x149aec7bea784];[0x0;0x80029b579ee4f;0x263ae1961e081;0xd4bb4b1cc6879;0x4c52939b1e3d8;0xc816ae926a7de]];
 [[0x8dce01599861b;0x6ff8b61a57341;0x12bed49cc8e2f;0x66085bcf5f2ba;0x24272acc8fe0];[0x1;0x7cf6a7166c7ef;0xb5913cdbe92e8;0x4735579077356;0xdb09c06f9aef2;0xbfa0677c1a443;0x1];[0x1;0xce177adebcbbf;0x6edd25eaa64f3;0x2394ac65903a3;0x49ced774a9158;0x11f685b27845a];[0x0;0xc12cb922a439c;0x33f536c7f2e27;0x977fa67c16085;0xf18b68d8427db;0x3fb0a1f2c2753]];
 [[0xf97509daac4e2;0xea5f01fbd43f;0xc41754717727d;0x606bac2a5858;0x4ad03455dd39];[0x1;0x8a46df0b0a554;0xf432956d3f05b;0x6912ccbb28a28;0x205093b9799d0;0x7712a4d82f91d;0x1];[0x1;0x6a52fabd1ddc;0x60a8f2e3e38df;0x6c1b48c293324;0xc0930f1fec6d6;0xf2368c8e2cdd];[0x0;0x7f3dabadfef98;0xfc2d7ad9dd080;0x98e9467deccd3;0x43c27818fb1fc;0x9817dc0fe714c]];
 [[0x9e0943a89fb27;0xfaa35e83b90be;0x7244b67c7b135;0xaaf542bb89cf3;0x1f0e2bb80708];[0x1;0x56ba5b45883f9;0x705c0b88471f5;0xa78f247584c42;0xdbc31287b9ff9;0xd07324292d49f;0x1];[0x1;0xf88a7ddfd72e7;0x53436893e33e;0x962ad3325c4;0x294985f7cb8df;0x17558cbc50e5e];[0x0;0xd2056cfa56c01;0x4bae0a715494;0x6dbbc26e4021d;0x4f0dc6559cbaa;0x2f96363800601]];
 [[0x64034f406b637;0x290ffed174797;0x894fc67b89b96;0xfbc99c4b6ec75;0x7d430e61a016];[0x1;0x7f8845726618f;0x9b755b5e3fe1d;0xee7d272c04f9b;0x8e9759e566ab1;0x64f973cf3b9b;0x1];[0x1;0xe66888b3da807;0x12554c41aa7cf;0xf0af5622253;0xa63af8252fe2e;0x1ad4c17da9f8c];[0x0;0xbfbcc6eb4;0xb088ba61940f8;0xe77bd2e2ddbdb;0x813972e2f3157;0xe713e68392aa1]];
 [[0xa618a2525443a;0xdc1b1c10feb0;0xd11d7b42fd8c7;0x9b5eeea588ddd;0x43eb2bdd5884];[0x1;0x7b1b07f1e97cc;0x9252d3cce33c5;0x12c617663d397;0xc47f9176c7a0a;0x794e3bc2dce35;0x1];[0x1;0xe87004382073c;0x4495bb4a0080b;0x1a78ea383d25e;0xf1303ff7131d4;0x1b27e6a8eb66f];[0x0;0xe4741527ef17a;0x854ecbbf95150;0xb1dd6ace48d88;0x4817391d163be;0x7c669436bde3a]];
 [[0xd9f39906c0e5a;0x20da06158c807;0x4a4e6baea7742;0x52d3537a7dc72;0x39e3538d37b5];[0x1;0xf5dd98d91118c;0xba370625dbb5b;0x4c9dd9d2adc93;0x81e772aac9852;0x9a4125fee8758;0x1];[0x1;0xfc81f49f408bc;0x8317e2e9af74e;0xe3694e6b5bb83;0x3bbfbac82502c;0x11edca2f30b40];[0x0;0x189629d8e3328;0xb22f3deeffc82;0xd956152a1c87d;0x2c1f3d20b46a2;0x6c7c8d375a9c8]];
 [[0x2d0c56ff66d2b;0x5d9e2769a8d45;0x668111c3484a0;0x84cfcfd19c94e;0x79f9ac716708];[0x1;0xc8c511255c749;0x19b2c2149b41e;0xd6d4522cc5f7d;0x5091cb1f85467;0xa27d421fb73a;0x1];[0x1;0x7d151e5de5f;0xa6e2ccc769ddf;0x5ad3af0b36507;0x8edae9047df24;0x10c9906189b6b];[0x0;0x8b1da406e346a;0x306e642fb3814;0x2b01791fcd0c3;0xed2cdef6dab0;0xe771b4f20f28f]];
 [[0xc7b2d530b62bc;0x6f03ffe63f7b2;0x310f07f04bf3b;0xa1d56e0ccb51e;0x7a868f6c90ba];[0x1;0x6aa8bbaad88;0x1fcba03f7fa61;0xe4f56efedd90e;0x4574ea8a2305;0x13afc5f19ca53;0x1];[0x1;0x330854f04fb70;0x4422b941c4886;0xb5c01820b0ea2;0x2a5e73d4cea9e;0xf9b3f245ab28];[0x0;0x6f8aadff2b90;0x11467b7b3f29e;0xaf312c50cc2bf;0x12ec4c855e95c;0xf4e1fd80f38b3]];
 [[0xbf631f202f26f;0x30548dc0c2d3b;0x9c43b23905672;0x921ba3fdf1699;0x61d595ff2e4b];[0x1;0x1d74538185c4d;0x6821338d9c12;0x69898ec75cd4f;0x14ed14f96c694;0x3e24d286c62d2;0x1];[0x1;0x5b5b948459737;0x1694d549df369;0xc9badf443e5bf;0xc4bbf6e769161;0xa0f1c7705f19];[0x0;0x7d29f2b80a6a9;0xf555985c624a2;0x24119d3861253;0xc06a6eade3c33;0xb24771f8113a3]];
 [[0x15135578c8a9d;0xb099bc51993db;0x7c4a96dbc7ded;0xb011a09f1c472;0x4489b3515e5b];[0x1;0x19540b1ec23e9;0x33d695ff54dc0;0x6373c26a5e076;0x904e5522843c0;0x77416ff1b0430;0x1];[0x1;0x49689c6010ccf;0x6e5d60cccf4b4;0x9ff764f84c12d;0x8ee3d47c454d7;0x198ae11d28f5f];[0x0;0x62b078b7fdf11;0xcd42f57444c17;0x909b36efa8f21;0x3bb3c9f555d85;0x70c5a855d7f97]];
 [[0x3774775e4520a;0x6612b0ce4b4ce;0x7b4e49feef3f1;0x401ee68081aab;0x52978df32fbb];[0x1;0xcfabc7101127a;0x80ce44357c5f9;0xc0de07183f9e6;0xed08b4928e0b;0x5ea63215137d8;0x1];[0x1;0x83d7eea3859fc;0xd3c96495af6d4;0x2c9daa3f03f4c;0x66c9cc300f26d;0x159f038e58477];[0x0;0xccce9c0f9299a;0xac4ef9a001344;0xc4bc22cac53a;0x576a3eb9c377c;0x93382ab9c79f5]];
 [[0xaab865982a935;0xc6e5a58c5e06b;0xe6a243ba646;0x8c66c5e5e0554;0x6e49842224d9];[0x1;0x5c73984ce5545;0x5b88727e03f6d;0xdef62b746f7ef;0x78f18bd9c75b7;0x1dbb71ccc82bf;0x1];[0x1;0x30b58d707689f;0xb9714f01e3fe8;0x7ea7e5b3eeb50;0xda233ee360651;0xb6a862cbe668];[0x0;0xed9c58a9affd8;0xc7cd9d32e957f;0x8bd9319ed57db;0x8015f8b7e6996;0xcf90c74a69987]];
 [[0x78cdc69968707;0x470c6e2946aaf;0x77d463bef77e;0x462e1ad209d78;0x6b043df8c9f1];[0x1;0x38bea49896f56;0x3abec80b43e55;0x7017d9de701fc;0x2bc82d8948dad;0x331a4db1dba39;0x1];[0x1;0xc9c042ed056a7;0x5facc4f804373;0x766a3086f8e7e;0xfaa9763ee720a;0xe3a23e18a82b];[0x0;0xf8f61e153946b;0x6311bf68eced5;0xb54a5c5fc4c8;0x7998a85bdd30a;0xda73998cf4f23]];
 [[0x4a8f98b0c2c3f;0x6875fee44217d;0x2729d94339c80;0x3c475747e4c47;0x353ec44a1875];[0x1;0xcde78f2021f62;0x94376e9422e0;0xf161e1813935b;0x52edd40636a75;0xa3ff6c2b6463c;0x1];[0x1;0x97385861d4d7;0xa396e896a9d87;0xe46f2fa47634c;0x5a11fe5d657e6;0x115132e2753f5];[0x0;0x9bc31041f9137;0x110822ee8d63e;0xc8574df0b7aef;0xf9dcaed237e8d;0x64f8b5e98f2c0]]]
 (V [0x52b06317153b8;0xfd22804700742;0x785c3304c3183;0x8b7ad2e2a20e6;0x35b0d551d7e5] [0x58759874ec2f0;0xcad3c75d86d39;0xf1d288bf6879c;0x22b74c271c395;0x610c8cb0736e]) [[0x953cb2c6c0880;0x2381000dbce1e;0x32157427659ff;0x522aa2ec2c1ad;0x4fef2680a3ba];[0x1;0x72118e98a3f00;0xc37fd37ac86e3;0x967e03625c054;0xceac3a133bdc3;0x634b9adea907f;0x1];[0x1;0xaa5c2ea8dc000;0x972ee9f0f29cd;0xeff9d74f21535;0x1c2bcaad63510;0x16f11f3c795c1];[0x0;0x2077f98d99400;0xf863ad56b1b1c;0x13aea3a329ce6;0x1b4f04f84d49f;0x908af7ecf7381]]
 [((V [0x69d466bb226f5;0x44d06cc7f8e2b;0xdf4db197c27d3;0x1a4f4ae3301ba;0x770d30df23cc] [0x62290ab222c73;0x47d0828fb94fa;0xaf394ebdc8d9a;0x1c864341e6a99;0x56a722be7c1a]),[[0x3fc7009563d3f;0xdba8ca241e7cc;0xce2d211c01bed;0xa4aef1d57ba39;0x5da885916a30];[0xe5026b3edb59f;0xb94fb4391cb4;0x253c66efc0ef4;0x9a7d892d97b66;0x1b2538a378cb];[0x1;0x503121c7621c0;0x447feb05c8a43;0xd39e9692e8e68;0xcf5d2b138877b;0x1fc50c532638];[0x1;0xcc8732aa0e8e0;0x72808e033bb1e;0x7ba97a2206995;0x979620b6a2687;0x14d98be88806];[0x1;0x55ad3969cc6d7;0x948a360465b1b;0x84f05e21833fd;0x1dab5a2292390;0x18055f70f2fc8];[0x0;0xf2d910e18124;0x924b2e7dbd368;0x514bc279eded9;0xc037a9e0a7bde;0xa737eb0efc6a1]]);
 ((V [0x7daaa35a393b5;0xe08c7cb57135e;0x4d9725698721b;0x669f04802e9d2;0x75d056f3fb13] [0xb2b48e5c4eb94;0xd6a8b12e66550;0xe395ac5ec4c8;0x1ffbe4810bc9d;0x51d4b2ee7379]),[[0xca47b673d80f3;0x5135896fa37d8;0xe740b14e2e3db;0x34af91b04d3dc;0xce9196215dc];[0x513c1bb265e8a;0x393dbd91aabdd;0x45e06198a4294;0x6e08d2ec1a568;0x62bc67e4a15c];[0x1;0xdcf9d88c4b1f;0x9deaf78eaf404;0x8ddb22607d811;0x35d9059488c93;0x56be478e5c2d];[0x1;0x81c9fd816d9de;0x957f25834618a;0x4dd2c96fdfa70;0x46603efcf7444;0x23eef7dff7c51];[0x1;0xb4c4cad589b6f;0x71dd873515a37;0x4a846ab5a0e14;0xbb36f88cab757;0x2c6881423b31d];[0x0;0x3a745b8756b13;0xac78058495d92;0x82931ee838893;0xa585e22ddf664;0x59348fbc817a]]);
 ((V [0xb848d677cd671;0xb11e609c4bd08;0xebdadf3708779;0x7547194ebfac7;0x143644f68e40] [0xc8e70e3de48fa;0xb66512b46d725;0xd0364a14ec07d;0xff0af0dacb773;0x5e6019773f01]),[[0x57321843d4a54;0xf755efe2f9679;0x20d088ae57ef1;0xb5eff04332be5;0x10b146faf2e1];[0x7eee2aed84813;0x8a9a264420771;0x545d0acf407f1;0x214058d1eeea;0x160c0950399a];[0x0;0x8a9d6e30e5861;0xc2d49f74dd0c1;0xe23b76529;0x1cef79fc232b4;0x40581f7067cd];[0x1;0xc3c1ab3c0f9e0;0x2f07f85820362;0xd1c9b036478ef;0xcac220effd855;0x6ef060256029];[0x1;0x80da965e9cdf0;0x46b0ae984e9ae;0x9637c83104a0b;0xf9adaf6ccd43b;0x1fd809e77d6b1];[0x0;0xb7ca38a460ba4;0x16320307e13e;0xff841c9ac6121;0x2fca8270e5d22;0xd32afcfa1422]]);
 ((V [0xd670d300e940c;0x3b040e6f24b54;0x422198df915ba;0xc3bcf01880041;0x2d1f54d54aa9] [0xd56df8253ed37;0x9c10b3cbded97;0x6407d9207ce4;0x353bb561cfbc6;0x67df7a04aa52]),[[0x131105033b459;0xfbeed3a808773;0x144b11fe2cde9;0x23fc6bde7f88c;0x6d99b2509fa1];[0xe0fc61e2311fb;0x3701bfe1d0bd7;0x95c52f9f09a47;0x8db888a58ded0;0x6437d5e776ab];[0x1;0xd1dbb6c3e9f77;0xcbf63a9d1d0c1;0xc864013e24378;0x1e5802efacaa0;0xc53e9f3f8bb3];[0x1;0x4dcf77a4bd30c;0x99eb6c73b4d94;0xfdced164453d8;0x70cd73c9f3cd1;0x1b7b0b35ea54b];[0x1;0x8e64887d213e7;0xcefcda8b3954b;0x1360337fa6110;0xdf51d9ad05cf0;0x4d3f41463d50];[0x0;0x7969b4c131e9e;0x8a7b4f11726ba;0x4f8fa8b5c86db;0xd136c825b4b00;0xc7efc74a051a1]])]
 [[0x7cd10254197f6;0xf44323a3469db;0x28eb785b59e36;0x48b7d3c9c33ad;0x7d1f73b51082];[0x35b3125c2e362;0x177ccf1cd3ad4;0xc047d99867877;0xd03cae943eb4b;0x606c25e593ac];[0x1;0xd0156295ad0f0;0x9f4b72c515ebd;0xe7ec192a394a7;0xc3343b5e601ed;0xb0f03c79df50];[0x1;0x925a420e03e2c;0x4c5dcf284e52b;0xce6f788459268;0x7ed8013d6199;0x177755d05d111];[0x1;0xa93911169e1fc;0xbac451a0828c9;0x1ce0165dabe63;0xcfa59b7fc686f;0x65551d8bdb4c];[0x0;0x58439ef56d1c6;0x74ff07bc2451b;0x4ef962f93c046;0x61ff6416228cc;0xf4fc0eede44a7]].
Definition wit_B_64_25 : colwit ipt wit := mk_colwit (V [0x59e81882b6707;0x11f8bb45d98c6;0x454919440ffdf;0xe5c30b496ff42;0x30e7f003e1a] [0xad056960cb207;0xd826e711a9ded;0xba79d5576b895;0x36686c0080037;0x204bfeb26046])
 [[0xcad1e8841bb6a;0xe2b419cf32211;0xa5a36859da219;0x9cacd4377aba5;0x3cad48d34f24];[0x21383ad1efd03;0x136154e351b8b;0x4e8c82c5a96cf;0x7072f72daf8a8;0x7c947247b52];[0x1;0xaf8a86acacaf0;0x403ccfca444c6;0x9b627c8f94d8c;0x5f800e1daecf5;0xbef7389957d];[0x1;0xb43f164c2cba8;0x9f9e7bd0b1df7;0x203245a2381c;0x68bd5dd7d3267;0x2311d998b422];[0x1;0x5083f6fbd8e7c;0xbe9e039fd17db;0x754f88c29567;0x930a14a9fbf06;0x3fa81f00efc3];[0x0;0xec2312cc9df9c;0x9f737fb3bf88b;0x3924d4adee57f;0x798f9a9ec1895;0x781f3a09575b2]]
 [[[0x556e2da64dad0;0xd5566b5ec0ca9;0xc8f3a2e27dfe;0xa3d3f3ad1b896;0x15b7ecebe6ea];[0x1;0xcba729ba7e840;0xe370bb20989c8;0x9baac127ab8e8;0x5c06c28744411;0xe5e74a7d26591;0x1];[0x1;0x3a27d4a112f00;0xa87ef63b40a83;0x1cd51dc960d0b;0xe7fc30dea3b55;0x3c0d82d16324];[0x0;0x9b9245c24b410;0x16de2b68bc90f;0xdc93000894f8a;0xe216479fe1252;0x293bfcdaf2bd7]];
 [[0xc49f39a5dcf20;0x8e049762687fc;0xe078d50f8b697;0x131502f77b1ae;0x6b01ed5e192c];[0x1;0x1b7839aae8a00;0x35dc550dbbea3;0x88aa0d20580ad;0x2cfa695acbc99;0x3560458852183;0x1];[0x1;0x4c75d902e9c00;0x386d5df5f0d98;0xbbfc8b289811c;0xf897994f2ba27;0x36e3951f1535];[0x0;0xe0cc22a05a460;0x41ed70244efdf;0xaeba2fe0a1896;0xa0f6d4e60ed16;0xd381fd7f97b31]];
 [[0x4f740cab23f58;0xf2b68d0ede615;0x321a5968a0c89;0xe9d0152eeb882;0x3483e3dd9b81];[0x1;0xd22b9342f8a90;0x2e1d4d07b4315;0x693f5e0afb6ef;0x5d258c49ddf97;0xa511b9ca9943d;0x1];[0x1;0xff00606e777c0;0x71c239286e16a;0x65bd0f261d4d0;0x5c9fcf5e84a7a;0x12800d41b2321];[0x0;0x80f1e20af0b68;0xf01a3a3d5973b;0xf7e021f764bfb;0xcbc3547d6bf82;0x5b9921f464e40]];
 [[0x2aebbb4fbf35c;0x91d85b42afa0d;0xf534e2fe81ae0;0xa413a106d140a;0x1c58eb8eb888];[0x1;0x89932ea2177c0;0x7d9fe62eeb5e0;0x902b63ac471b4;0xc2e5925b888f6;0xcf188c934e4d4;0x1];[0x1;0x6ec3ea9acd470;0xdac109b21570;0x6db087b14cc2a;0x1fc2f91491fa;0x1281b8e342707];[0x0;0xc2941c43ac678;0x945aed4741a2d;0xcc46b9245a7de;0xa7b955109cd2a;0x2ba151910a0cd]];
 [[0xbcaae67c3461c;0x89320f8bc1b0d;0xfe42e71f94e90;0x23e538b3cea3b;0x274137c7cea7];[0x1;0xfa8b8574f9564;0x2375477f9aae9;0x44b887cdf6fe4;0x649e4d29ad239;0xc06779f54666c;0x1];[0x1;0xd6414d7b8ba70;0x38e49fc2bb134;0xda89bb0611c36;0xddce19c953a95;0x983842e3b402];[0x0;0xb4140a1d47870;0x36905135e1891;0xcc5991a1e39a7;0x7e0b0da7d7454;0x4d9cbfb711486]];
 [[0xb45cb0d1dc35a;0x7aa7b1606fe91;0x84a831f79079e;0x9b3edbf66a73c;0x81d13802d6a];[0x1;0xc91499443d18;0xc9bb4d675ccff;0x54d91185c16ff;0xf99860ff5525e;0x31fdc959f362;0x2];[0x1;0x88cca6a7324bc;0xa7474f4286772;0x5ca2d9ad7d843;0x64a06453ae0dc;0xb398baddd244];[0x0;0xdac644baf8aee;0x827231e76c307;0x17e5989a8e4fa;0xaa7f5f24abf33;0x20b8c7f5acfc]];
 [[0xca0949477c84;0x60bc5e80a32b3;0xf2b925b3d9311;0x443e843570cea;0x6ff89ba9877d];[0x1;0x81e873e38b5a8;0x8b30176f674f7;0xa2507542cc900;0xd90f59e803c61;0x220e2801ee1a3;0x1];[0x1;0x8c19d3b2bc170;0x34056d764c773;0x4e935a8b3f078;0xf1f4dd13a2c68;0x10971bc29c4e0];[0x0;0x7019f51fe94b4;0xce8f8fbf7a41a;0x99c85ff910658;0xb414154489eac;0xcb2cfe0058898]];
 [[0x85cf928dcf91;0x6cfd7160e6598;0x9d0b27cd626a6;0xe9808205cce8f;0x11c92c4f5a33];[0x1;0x8e86859582e9e;0x2ce7c0b46aada;0x74c7cae1bd083;0xa84380aeaf7b;0xe5d00734f59e9;0x1];[0x1;0x832c5833d3337;0x497c130ed3af5;0xb630c9e5a115a;0xbcf4c141965b9;0x1b74e2824059d];[0x0;0xe760d19baf4f;0x89b7c4dc6918f;0x58ba0f56c83bf;0x35b8c5388a281;0x1049c1053d870]];
 [[0x9c533bdc93278;0x8c61aacfe8b6d;0x3e140651f910c;0x43ca900445b10;0x1be2ad1e8584];[0x1;0x3fa00dedcf800;0x97997117bcb74;0x802fac98b71a5;0x97639e3708124;0xd1dce5d464d09;0x1];[0x1;0x2eddcb80b3dc0;0x8f71fe647362;0x3e56f0ac8ff7c;0x5572db1b13c1;0x19c51ca9498d3];[0x0;0x944dcd9a91f00;0xea0924036a5f3;0x731d7f2ff86de;0x9adc5ecf59433;0x236e02a5d60ea]];
 [[0x3b0e31be4a358;0xd02278ca283c2;0x237999c5a5c2b;0x646433bdc0fc8;0xcdf6dd5aa0a];[0x1;0x50325fdb46b58;0xd600dd209bc31;0xd9c15ab0cde77;0x4aa20f83ec700;0xee16380c26084;0x1];[0x1;0xa2aa67b5cb7c0;0x4278a135ea88c;0x3cc23dd5915a3;0x6af8c594ae337;0xea9bf740c34d];[0x0;0x7719557d9e640;0x4f5da28009545;0xe82eb476d2b7f;0xc57d3535d2e77;0x91246abace99]];
 [[0x152e03ac5b707;0x1070041677b73;0xb265eed52a7cc;0xbcf442ba50de1;0x7619db5f43f0];[0x1;0x6164466bef986;0xa527a842afbab;0xe48f09e490029;0xdcf09f9ab8d91;0x1ad49214329dd;0x1];[0x0;0xbc6ec624d4959;0xf48ccf5ace619;0x2a900754679b3;0x46f0b3a526919;0x29542e885314];[0x0;0x60ff0e49a7ba8;0x55ed41b12a940;0x33802ad89db07;0x8473398d33fb;0xe7ccbce06364b]];
 [[0x66c4fc4053d0c;0x16e3c5614201f;0xc459b9021dd90;0x31e733c8dc7a7;0x65faa1e07c6b];[0x1;0x95b0496786ce4;0x5da1b67df6c6b;0xce8c07ca4ac26;0x37d4257e17277;0x3d6df15b4d559;0x1];[0x1;0xb29e5d0c38f0;0xd1796e91aecbd;0xf495d8d07620b;0xd98a62f86d1b0;0xdbcfd9d2824d];[0x0;0xd11cef2874618;0x201a40e7d584f;0xd66dd9ad19374;0x87ad4e6df606;0xc1ded9238d526]];
 [[0x3658986a8978;0x417afef4a6f7c;0x93cc0602104f0;0x3cab171290435;0x47aa40ebb43c];[0x1;0x90d8d5be11370;0x68e017048991;0x5c7114be9a788;0xe738905459b2d;0x7e8a99991d021;0x1];[0x1;0xdac8fbbe2dc0;0x3bda2e20f6bd4;0xdef6593a65fa;0xb777dd60b23ac;0xfe2604645f56];[0x0;0x59137f2f16be8;0xd526e9b496119;0x213b6472c5cf1;0x6ca69f3478a1d;0x895cb7857a6bb]];
 [[0x6488607446fd2;0x8c498b477f806;0x391a182aa279e;0xfa19579e62c5c;0x3ab12268d7f3];[0x1;0xa56878eece800;0xb202ea612ae93;0x595e85daf8c3a;0x12e5853034e62;0x931fe547970d5;0x1];[0x1;0xd2a268ef4ef1c;0x78a49ccec23e9;0x62767cdb931e0;0x63144335cc7db;0x34d02d83e979];[0x0;0x57f035e55c514;0xc5fa6e81aa0ba;0x21a1677c1b467;0x9993b5d5e83c3;0x6da80fa225c34]];
 [[0xf6ded16e22545;0xd0c3c89aef9f5;0x888346ba2afe7;0xece0d56ff7b5c;0x434fe82603ec];[0x1;0x93b137ac2e783;0xd19ea13a0f70;0x302dfcf670847;0xdcd31fb315ce;0x86b061ad933dd;0x1];[0x1;0x591b5635447ff;0x763a77d2e44b2;0xa88ed71a7b444;0x22f07c8c29c45;0x9c7915ed2f8f];[0x0;0xf4ea6c4f45a74;0x443c9dd55454a;0x24a2b9cd79c79;0x5c8c70e2265c;0x7e2b0c658a2ab]]]
 (V [0x27caa132a64f9;0xeb222956de052;0x1ca524e8c0985;0x2e8a694bd1e8f;0x12f4e801a62a] [0x2f617f10818b;0x2d9a374ba2d74;0xde61984fa7e67;0x418c064953a4c;0x5de725b708ac]) [[0xc6504110ca799;0x13a7f83445fe3;0x58a2b7a6c6be4;0xf118e116cb0a;0x1f640726b6db];[0x1;0xdd3d2f1bc6817;0x9ba2a249c15b5;0x514e669a98b83;0x1dfa6df2eb15a;0xc9beff24ee3f5;0x1];[0x1;0x821c3b2a5bd67;0x22dee10bd7a29;0xf5ae41f462ecb;0x59dc77386cc8d;0xdbe88ea2d2dd];[0x0;0xed3b7688f3544;0xb035e943620d2;0x2facc7eeda5a4;0x3980db9ef138b;0x2dffdbc5fd11d]]
 [((V [0x276306ee59bfc;0xe5f70658f86b;0xe59c32917d51;0x389bdaedb1a17;0x7abf464561f3] [0xc8f6b1aaae1b7;0x7435399dfcdc4;0x9417808fee241;0xce4206aae4cc6;0x51098f712ee1]),[[0x8674415dcbea9;0x9aa7368294d4e;0x125157c000ae6;0x1e4bbaca7607e;0x562746e48890];[0x1a94362dc4d44;0xb77790fd1d723;0xf4dd516040bda;0xbe510c3def15c;0x7dba55bcc13c];[0x1;0x4bf411d457ea7;0xf97f637b68048;0x78767fb1ebb0e;0x245b62192b97b;0xf8a5f5a2e0ee];[0x1;0xfc2f3f329988a;0xeb0954c3e2cd0;0xcf10dfd1502bf;0x82a19d7231f32;0x273f5c6df7726];[0x1;0x6db4eb66aa647;0x57f0e0d916dcc;0x4c2311dca90d8;0xbd746da324302;0x107555940ea86];[0x0;0xa90d5076e7716;0x5d9660fefbfff;0x45c7ac5e07631;0xaa66e711b6ab6;0x97752e8aaf5e8]]);
 ((V [0xceee89f8e40a6;0x5c5d6dfa10935;0x481c27da4a5fd;0x5eec64e8e1994;0x1190d54f5a8] [0x8f974f595faf7;0x931f29d746c4d;0xbf19b5ffd48b7;0x716080a966348;0x426e0be370c3]),[[0xdd2b150b9b580;0x5fdd0abcc14e1;0xa29bbdd470105;0x58e8595823614;0x48ac4f2423ed];[0xc00b4061289d0;0xe1a13d2ca5b97;0x142ff0a0429ac;0x867601bf49672;0x532543be91ab];[0x1;0x3e77a20776570;0xd957b9d1c54bf;0x25aac7fd80f12;0xe680df02b632;0x3094cbb502fb];[0x1;0x63bf746567b00;0x30fd12dddb451;0x74a2384509b44;0xf7e9ea226d37d;0x196daa731052a];[0x1;0xa9fe79e37c000;0x37d491cac6602;0xb6b85a4f9fa2c;0x67d6a73eef562;0x1c3ec72c1e8a3];[0x0;0xd9af2000e4680;0xd8f6e113f4fbe;0x3c29951ced04c;0x200975f9907f;0x87c583f9a1253]]);
 ((V [0xae90e9757e127;0x9f3ef25efa20;0x3346bfbce0b4f;0xe3582d04dbdee;0x6ed5357acc4e] [0xbead2cdab6471;0xc942db2cbf07b;0xcb55086117c30;0x44c7d67382e0a;0x127f7005f624]),[[0x9029d8875c005;0xd5e73da8be1c8;0x1e019a63ba987;0x3c662db9e0d27;0x147381fb407a];[0xe8c84db0bb11b;0xa6a1be9eb978;0x29f42ad08ca0a;0xcc1e8ec079f9e;0xb58cf75c6c9];[0x1;0x50e89f1b674bc;0xc90cd8535f3b8;0xb9934d279e145;0x86b1dfd9e1d71;0x16af35cf0329];[0x1;0xba246ad04336a;0x1a507b6e7afa3;0xf2eaf4197c961;0x1a75f38eafc3b;0x2eda94639e55];[0x1;0xa2630144a407f;0x3ea546e95b7ba;0xf8e2cc7a05c35;0xd8b8162b77d9a;0xdeca1f6ed7a2];[0x0;0xc1eba612013d8;0xe9e3b24c93eba;0xdde2e08a13e67;0xc2d7af4ca133a;0x1e7805ccf7fb5]]);
 ((V [0x875d173dc04b4;0xf0a3f5f5eaeb9;0x2e7d263e6ba7;0xad488d0e3a107;0x450023891bde] [0xe170ebed57625;0x447fb0b7ac9b7;0xe56470aa0cf50;0xb0a2f431962d8;0x11deaa4f861]),[[0x591d4a90b9cb4;0x2f4caf51e7a7d;0xf85403e16ddcb;0xebd10f0b77b16;0x601b734c7fef];[0xadce3eb10de19;0xc7388da0e4d17;0xc06b5387a50ca;0x6d412b1ff53ce;0x7a9898d9286];[0x0;0xfb49f149fc119;0xc45c648fdbe12;0xe59e5d55b2041;0xd9c9e9584e3e8;0x50a4c3f3fd22];[0x1;0x8f0e1786ca8d8;0xe662884947001;0xf78979a8166e5;0x59563f8f31c7c;0x1232223221d2];[0x1;0xdbaf5008422f0;0xc58f5c5756622;0x158dd87483a63;0x696532e8ce4a2;0x1fd2bea279cef];[0x0;0x905fc390efc70;0xc0a19617228e7;0xf48d996858afe;0x7810ddc19b62e;0xc5bb7ed9c1ca2]])]
 [[0x86cc98287bf86;0x3cc693a2d74b;0x2ddb9f7422b2;0x888d4e8a207c0;0x2926d1aa6331];[0x10f883d1a7457;0x367d34c03ea48;0xda40f8862e110;0xaf65b446e4369;0x3cd86b7567b9];[0x1;0xcbde816b7e2f0;0x11e8ad40df09c;0xe5f2757e1c166;0xbdddbafa60e52;0x547eb09af389];[0x1;0xd5eebdaddbe4;0x13ba0dafef78a;0x6ad43d4fd80f6;0xe7a54bbb97008;0x16c5aad02c1d2];[0x1;0xc46040dffa23c;0xa12086942c90f;0x78343b7222f53;0x20943db373113;0x1cfe5a68ab66d];[0x0;0xae8b77e444480;0x2b819ff456feb;0xab03082c3e3b8;0x5b36f78e928db;0x4c0cc1c46e630]].
Definition wit_B_64_26 : colwit ipt wit := mk_colwit (V [0x2b6e2783ed517;0xbfd969253a491;0xbc5f6bdfec609;0x9fe283b59cdc3;0x7ebc1e60a689] [0x38708b92516ba;0x611246db7f359;0x2cf7326678771;0x84a4d0dcb1225;0x4628bdf8341c])
 [[0x31209829e11c8;0x8340ed49c3da2;0xf38335771f3d3;0x201d009b6f452;0x4521270cf7a2];[0x93ad7e7632a06;0x6487e524e5a06;0x5c2b375511be8;0xeecfc011d20f5;0x4d3d3e058f7b];[0x1;0x6451c7f17092f;0x9eb30ed5d9035;0xa017d7fd8c156;0x41e6922d67aa0;0x4b78d816759e];[0x1;0xf30113e886b40;0xfc4b5f9e80e90;0xe30ad6e734210;0x94c76d5b6ba6d;0x189dc1d094768];[0x1;0x2d138c75109c0;0x870b5600347a1;0x5ed6d74370770;0x937c76e4323b9;0x26a627b0ba9af];[0x0;0xbb7e1cd02bd78;0x9f23bd047955c;0x5d14675bf4e7f;0x8c9553e4bcd4d;0x7cdfe8fb28262]]
 [[[0xe1c8217d52fc9;0xbf9f2fe9ddb5a;0x8f0b963dd7f58;0x1ba0bf8698e09;0xe8191061c99];[0x1;0x552d7b457c6cd;0xc7d0d6a5f0789;0x62c1de9882ad3;0x9812a90714f7b;0xf29d30ae15a8d;0x1];[0x1;0x85377c3759c07;0xf4b46acc68023;0x9a0a642fdcbab;0x11ff808bc4619;0x260c70a2dc71c];[0x0;0xfa0f8c3a862d2;0xf44e4867e5f98;0x97aeef8853057;0xe78e6da4a72e0;0xc8cc0b2d7391]];
 [[0x885a0b3894179;0x54159c70d7be7;0x119b700345d13;0x5d0c689763e77;0x7e0c58170b90];[0x1;0x9a426244a67a4;0x92b47be9fac35;0x51de55eb7f4ec;0xb97ae03766964;0x85011683c1b4;0x1];[0x1;0xb5871f52d25a7;0x77d201e366c12;0x6633dd3691791;0xaa5f4be25c61d;0x13de12c6713ac];[0x0;0x5c0b6ed7bcbc3;0xae1a23d3a6e94;0x36d49c2246a15;0x868c71f7f3fd6;0xf4fed3d6665a5]];
 [[0x60cb1d18a92dd;0x7ea8bfd9aadfe;0x23d1b5472521e;0xc3257cae79161;0x62c9e3aaeaaf];[0x1;0x724e940fa5162;0xbaa7208ee8863;0xf29d047e66c6b;0x12ccb523ed950;0x3e67701c975be;0x1];[0x1;0x6a5a317c5da4f;0x3d189aca5ab04;0x26549e932911;0xb9cd1f52b89c3;0xd739a26b733c];[0x0;0x7ce2f52a6a36f;0xc992ecb9027eb;0xd9dfb1bed43cf;0x53223bd1e72ea;0xb9c58d0343b19]];
 [[0x4bc03ab5a2e21;0x6d9905bb5e164;0x8c74d75913c21;0x5b010f16a236f;0xee402af261f];[0x1;0x66dee53813530;0x74d6ab5eb6457;0x2a782f647f84b;0xda4972283e118;0xefcded1b3e004;0x1];[0x1;0xfca16d923ae17;0xe86ef127c90;0x6e3ffbfa91abc;0x1ede77caff416;0x165bf4568d48e];[0x0;0xba2d2dcc0ce75;0x4646dfcb3f743;0xb060e87533e3d;0x73e9676013459;0x104932a16a1e5]];
 [[0x44d0a3b89045c;0xb7cbc0ede1146;0x7d6b2bc0e547b;0x60c67eca6310;0x7e0b57900817];[0x1;0x113f678b6f890;0x28adf700b08a8;0x4f0164552a793;0xa4730b8c6b6e0;0xb6008e9166b1;0x1];[0x1;0xb8058dcfcdc70;0xd52c29532ef09;0x8c9e17966798b;0x103d5a106d182;0x1857a9610d53b];[0x0;0x2eff5118b18f0;0xa578b749dd92;0x5ff077332b762;0xb1a4e48c4eec8;0xf894a522a65d0]];
 [[0x855e181d6e8a0;0x7a8d5c4b82bb7;0x383f11f64ec3c;0x99101c4c66fe4;0x3c6dfae5c1e9];[0x1;0x1037e244cf3a0;0x5e37475066f43;0xe916dc4795704;0x51e8576299d32;0x95e4eb6374dea;0x1];[0x1;0x8e84f0dcffc00;0x140e06643d113;0x66774a3fb1493;0x1545bcba930f;0x1f45b57f815d3];[0x0;0xa1a102bcfe600;0x53828eb4f2be;0xe6520727393c7;0x10d60483c393c;0x6c370abdbbc53]];
 [[0x390d31a76176b;0x761190ef53fdc;0x4f0d986301209;0xd01369cd1330a;0x645e8d99900e];[0x1;0xa43be9f89f08e;0x790dd1423d266;0x8071dde202d0c;0x809d47aeae004;0x3a2e26586e4f4;0x1];[0x1;0xd114a68d5a0df;0x7f1f6698f99da;0xf9761444e5db8;0x4af15a741345b;0x18a0997ccc764];[0x0;0xde70a29bfdf8d;0x56f1fc70a12e7;0x1cc6681da9785;0xa8bc3df73bc6e;0xb993799df4953]];
 [[0xdeee218be61d7;0xd7a686b8607cc;0x9d223b5d1ce8b;0x6798f68ba8d7a;0x30f733dca682];[0x1;0xa27666fe3e7fc;0xb5ed308156048;0xc86400f2326b;0xa2a89dd53ecbc;0xa871ac56c1d73;0x1];[0x1;0x3cc0663173747;0x4d3188f8534c6;0x55a938dda8892;0x8802d0c860ca1;0x203def1ce693b];[0x0;0x59a9f2c9c82cd;0x1d018d49b844c;0x68e4227845c21;0xf0f3060aed3d2;0x4b6d4d4a0cb28]];
 [[0xf64e18bb5270;0xe4b6fe733d384;0xafb8bc615fd71;0xa8b014c5cc2b7;0x5fb12dd1df01];[0x1;0xc65dc5f1ab060;0x3d00718ab20d3;0x4c7326b57a37b;0xbb71a4c83f53;0x42812b9c57ac5;0x1];[0x1;0x5d39d81e6e700;0x66f25560e3c8a;0xf01858e9fa6bb;0x22d8aae4d26fc;0x18f3e6aac249a];[0x0;0x7890440bb99c0;0xcbbbcd73aa262;0xd3cf4f237bd7a;0xad455459fd3fc;0xb1706db3ee196]];
 [[0x90d5a6e884671;0x3be1bfd727aea;0x23fdb76fbfb2f;0x208456595b915;0x54a17175e919];[0x1;0x3736a8be72cb7;0xb83a93e30e211;0x27555ddd722fc;0x12fdd935596ce;0x5dc57b9054b0a;0x1];[0x1;0xf673dcb72bf77;0x7e1d3888a1ac9;0xbb5e16ecf526d;0x71069aa6de4fc;0x1527564487037];[0x0;0xff5bfde8bbb3a;0x352c9040ccac5;0x289e66625bad8;0x89b75ea6169a5;0xa1b168fb3e9b9]];
 [[0xf891f326e1c88;0x285c57ea9d208;0xd092ee757fb59;0x823a7e9621e43;0x5f6a69f0e6fe];[0x1;0x311ff07f7ce70;0x9014b2d3037f6;0x93bcf9bd9c6a4;0x849ac97b035a1;0x4ce29af5a6f31;0x1];[0x1;0x80a811da2cdc0;0x7f51f43508c0a;0xe496515db82a3;0x5656f6c377a2d;0x12ef15e70ccdf];[0x0;0x118b77ca13b08;0xbf6d8b55f5ca9;0xa5e860481a016;0xa136cf168dfb1;0xb790b2fa5c146]];
 [[0xf39b501bba0b2;0x558ebc3066538;0xf92542491f599;0xa594485cafe19;0x545b7d524c47];[0x1;0x8a0131c0711c;0x198ccfe086573;0x981133489a921;0xa0eb182f8b382;0x5a5b42a7787ed;0x1];[0x1;0x3e45f9af6f9c;0xb4f26a8ff460b;0x365376e3fc5e0;0x2e75eaf7e4636;0x16e3a63a3bae8];[0x0;0x92e21e4bb15b0;0x164af660502e6;0x60f96c45c77aa;0x95f02f398333d;0x9a9d9bfab8aae]];
 [[0xa9e0be580a87d;0x818d38ef52ac0;0xbb192b67d0ce1;0xa0f9ba5340e04;0x514e18021957];[0x1;0x86b90eda5dd2b;0x62d32d76ad3bb;0xaf9933cfe0916;0x1bf8a6e908d50;0x69eb0e131937f;0x1];[0x1;0xb5f519d86660f;0x211d7fd53a27b;0x360fdb414510a;0xfb54261a79ad0;0x1fecd91b806fd];[0x0;0xed4d46264c4cf;0x2c0d48408044;0x8ef9fa9500898;0x3fabb097693c4;0x9efe5c4c6cc1c]];
 [[0xbccaf67481145;0xe654dfb1bbde4;0xe27fa525f88f8;0x777e929cc670a;0x155f4d325274];[0x1;0x3d7990773bfa1;0x93abfdd00fde4;0xc19bc7a3c559b;0x709cd171adb42;0xe8cd2ef8957a9;0x1];[0x1;0xa6fb716864fff;0xc5c89de434176;0xea1138dfb507;0x8e9b47e7c83f2;0x1e4bbceeb80c1];[0x0;0x23990d6916520;0x414b8edb099c1;0x52f231207b04c;0x389e5e0083a6d;0x1f22b71b52506]];
 [[0xb90cbb766fab5;0x945952f878a41;0x910eee792d0d8;0x125a548916ea0;0x59eb5b133f3];[0x1;0x59cb0da326686;0xf63c193f9a056;0x68308c044f2b5;0x1bd61c4bbacd3;0x2f25d8a183dc;0x2];[0x1;0xd48071260119f;0xddfeaaa8bf89c;0xc6ab736ae7edb;0x15469e39c91c2;0x222e5e7be593d];[0x1;0x9751423248b51;0x51ce2b8f1cb0d;0x61651ae688579;0x89e43d24076c8;0x4e610d364a27]]]
 (V [0x2b6e2783ed517;0xbfd969253a491;0xbc5f6bdfec609;0x9fe283b59cdc3;0x7ebc1e60a689] [0x38708b92516ba;0x611246db7f359;0x2cf7326678771;0x84a4d0dcb1225;0x4628bdf8341c]) []
 []
 [].
Definition wit_B_64 : list (colwit ipt wit) := [wit_B_64_0; wit_B_64_1; wit_B_64_2; wit_B_64_3; wit_B_64_4; wit_B_64_5; wit_B_64_6; wit_B_64_7; wit_B_64_8; wit_B_64_9; wit_B_64_10; wit_B_64_11; wit_B_64_12; wit_B_64_13; wit_B_64_14; wit_B_64_15; wit_B_64_16; wit_B_64_17; wit_B_64_18; wit_B_64_19; wit_B_64_20; wit_B_64_21; wit_B_64_22; wit_B_64_23; wit_B_64_24; wit_B_64_25; wit_B_64_26].
