(** Witnesses for checking the table of ecp_id_tc26_gost_3410_2012_512_paramSetB.c (EcTableCheck.v): slopes, quotients and intermediate points. *)
From Coq Require Import List Uint63.
From Verif Require Import IntPoly EcTableCheck.
Import ListNotations.
Local Open Scope uint63_scope.
Local Notation V := unp2.
Definition wit_512B_64_0 : colwit ipt wit := mk_colwit (V [0x5c97d4f6fa16b;0x993c4b9e50f7c;0xeff1044193caf;0xc60dbb01a52e7;0x970556ac9c704;0xb31c3e2eba76a;0x6831bcac2f91a;0xcef1348c2dd7b;0x7dacaab0be760;0x6299821ec64] [0x2fbec357b76be;0x564e3f766c526;0x3d27acdbd7ba9;0xae00037a7998a;0x832b060d2bd4c;0xb001efaa39489;0xef0b5ecf0845d;0xa5c274e7d4d78;0x7c34a83f808e9;0x50455ad69df])
 [[0x1a26f04d87d1f;0xfed1aac36f361;0xed6f98ceaad1a;0xe661ac48ad5b5;0xb4ec79049217b;0xef2a1ebbb9ade;0xe39154b4bb436;0x5f50e721f3fe8;0xbea7294ac03b4;0xe07dcf4f87];[0xffffffffffcf7;0xfffffffffffff;0xfffffffffffff;0xfffffffffffff;0xfffffffffffff;0xfffffffffffff;0xfffffffffffff;0xfffffffffffff;0xfffffffffffff;0x7ffffffffff];[0x1;0xffffffffffc19;0xfffffffffffff;0xfffffffffffff;0xfffffffffffff;0xfffffffffffff;0xfffffffffffff;0xfffffffffffff;0xfffffffffffff;0xfffffffffffff;0x7ffffffffff];[0x1;0x1e0d4f9ef0a2a;0xe85cad87b4663;0x45ff31e5f785d;0x4fefc49632970;0xf3f294bd8736f;0x966f3531ef316;0x72fdc5b11b280;0x3b19a081029e8;0x8a41d1461060d;0x2e5c9cfbcdea];[0x1;0x9a04ea6fef31;0x9fbe017015739;0x294d19b37dd6;0x5455dc490c8e9;0x386189fc16a1e;0xe2b573130dfdd;0x1407c1a66d6cb;0x63088345ab01b;0xd81bf705192c9;0x2c3a94b6c4df];[0x0;0x4236c13b1eee7;0xbd62a16cb1fa3;0x56c81ad6da2ce;0xebc4a4e03c391;0x7d967ca84e250;0x70a4b6fbda3b2;0x6f0bc210c2f7c;0xc3e886acf1a52;0x4d00cac1bcdc2;0x1a915017d2d2b]]
 [[[0xbad98ea205f02;0xcb788bc55482;0x6438ac90008b6;0xf3d57c190cc6f;0x9da1ebd65c4b2;0x19f06af7598b2;0x718de4b1d0bd3;0xcc560568af07;0x372d228c6f4;0x35ab18b8e58];[0x1;0xe0bcde1a47b6e;0x5303099198d45;0x40b4a726cac14;0xfc34fe5dc755a;0xe80955244a526;0x64bc27a10363a;0x25158af92c102;0x792a0d5ee3641;0xc0c1723abe8b4;0x9531e1ea5c9fb;0x1];[0x1;0x92ec5fc6f41c4;0x6a3f27533661a;0xf9c80be7c37e1;0x20b74117e54a3;0xd123ec9fb3e43;0xf5f9ba7ea1d3e;0x5d7c5b03f2aea;0xe093bc25d5dbf;0x7e419fb6ea3fe;0x1cb8fc6ca7f8];[0x0;0x643abcc6fa884;0x12b77cead040b;0x451b45eb777da;0x373eee728455b;0x74e9bfa6235ae;0x484b2ee026374;0xe8316312b8cff;0x323de43435aea;0x84b26230f2fc;0x6a859dafb556c]];
 [[0xe6d29753d61f7;0x8197db941550d;0xb5f827ac83e91;0x2d22a59de34ab;0x13544e0db1604;0xde95506303528;0x137d7a332b49d;0xef79b00cb8daa;0xba02e620cf3c7;0x3ac5e48ed65];[0x1;0x9d57e04cc065a;0x560054021dcbd;0xff69d98ad224d;0x26e77a0cc6cba;0x7dbc4bd4a8519;0xd05ab3ed4db79;0x38e23ca25f7b6;0x88c9e129a6348;0x1113b28fde2a5;0x8b6c9951ef082;0x1];[0x1;0x78aa77b2470c1;0xdee0945cf2b57;0x9cf60a89ad08;0x7f1aa63541fee;0xe2b61be0c885e;0xbbc3d50d86a1e;0xfa121ed781fec;0x126250de26016;0x8daef3289c68d;0x17360fc1008a];[0x0;0x7e2bc27e9475f;0x86c469cc869f4;0x95d3084b7a81b;0xb25d500ede788;0x8f69a3f151d7e;0x8e35c8111e2b7;0xae9e27d8d9a1f;0x838fb3f1ada4b;0x1f15cc672ae2;0x75265ffcaac5f]];
 [[0x7a68a056986c2;0xdcc98d8240eda;0x8d4e5643149b4;0x9325932b5c96f;0x550aec02d3689;0xbe06be7c33c54;0xef40fd66e4b7f;0xd1a4aa235c5c;0x5a0acc451e572;0x6a10cb9ab30];[0x1;0x706b56668e2bc;0x1e1efa7c0f25d;0x98c3d5f0e033f;0x5b720dce356eb;0x22448ea421b04;0x8859c75ac4ef4;0x39664cb9ac5ec;0x10b918d8876da;0x11cdc5f110b9a;0x2cd20def00839;0x1];[0x1;0xcf412a2d400c4;0xc67519e899156;0xad0d4ba6211a;0xd4923febbee52;0x4ae9443c6a252;0x57c0b506d5bf;0x3e1ce1f08bd7;0x18707a2a50882;0x712c7f287972d;0x1f91e3f9a8e3];[0x0;0xb4db864a94ea8;0x563fa983cd7b8;0x2504cefc86438;0xea7e635042f7f;0x2077198960deb;0x52cfd265faeb3;0xe05994fc0fc5c;0x6d9214624866e;0x55bcfe1bd95b9;0xd37d7deeb8fe7]];
 [[0x27a949ecd6ba9;0x6e17ea6e19e22;0xa0b107fb6fd29;0x57b44390c7365;0x2fbcd29565d03;0x26255821f9422;0xb4a74ab203efe;0x1201957b00255;0x4516e3b2826aa;0x65d534d8210];[0x1;0xb5925f403ac83;0x2dde498436571;0x9bab5312acdf3;0xe227b464fcafa;0x9757215c72a05;0x4e939651357f9;0x1a46f294e4141;0xa15a662c0e660;0xd41688fea7f4d;0x34da53ef1d570;0x1];[0x1;0x37e1b5b65601;0x414c44d62fbda;0x9fc6d1191e65b;0x2d2a2a2564c2c;0x6697cee4e678e;0x7e6f88749bedf;0x84baf9d2321db;0x3a60f05480002;0x255ac18a4383f;0x24ef83799fa5];[0x0;0x1eb04975532e3;0xc768490af70f7;0x9960d8bb9c83b;0xaf6beba17f43b;0xd1180158ef93f;0xa1a329710ef79;0xc7cd0b3ee5387;0x4f9ad42065219;0x80788a94fd8b8;0xcaea39d912a53]];
 [[0xbf7bd08d85da1;0x982cc4a1f4f37;0x233296b291256;0xa08b7f1047062;0x376ea07228067;0xf42e189ef4397;0xea60223ba428b;0x7fef4b6dbd05b;0x53b7fe6dfd81f;0x2190f053487];[0x1;0xb76902dfbd441;0xf02d8f7fc9db3;0x7cd9790c3b757;0x1a24a02260016;0xbd8d56d92329a;0xa5c23e2fb70e5;0xc56d0552681e3;0xbb3202901db6d;0x85b47b8b7b46f;0xbe09a62718aa8;0x1];[0x1;0xcba6dac85ecb1;0xfc8904c508b5b;0x3524760c1ec6e;0xf28913691638a;0x4370c6ff54bc6;0x65b37a3366d57;0xfeebb3913e06f;0xfb7f5b2776f2d;0xaca256be018ad;0x23a3ae04a1e9];[0x0;0x8f627b2f4fd05;0xbd6e2ff0230c;0x513e7ff1353d0;0x6f1957f64930;0x89bb15e1e8f2c;0xa366041e1ffbc;0xc0cf9f62991d7;0x54d1d35814808;0x26d8fabbdc53c;0x420fe36079d3b]];
 [[0xbc19f51d631ac;0x8deb5edb02007;0xe6cb836a62e09;0xd8677a09648bc;0x650974cbd917e;0x94473f989cbca;0xef07c3b03c2fb;0x1bdb622887b18;0xe48b737edb3b6;0x1494d7e2bc6];[0x1;0xa88695a439ffc;0x9b90e9dd1b2ec;0x97a5ce36183ac;0x1d2fbaff67abe;0x278a2cf04f3b9;0x95000c3a3a0e;0x34d0af8b7b537;0xec3f7ce58b3b4;0xdb5f7260baf72;0xd7741238eaa5c;0x1];[0x1;0xca491989ea90;0x38f9e882bf48c;0x6985c896b1a09;0x5ae07b230699b;0xbc7459fbe19ac;0xd1dcad807dc58;0x2c071fa6baa72;0xf725b4d276327;0x4ea79e445d4f8;0x160e16941dd5];[0x0;0x350686f4890cc;0x724af69c30785;0x7871d6811ed4d;0x10411bb1b6621;0xd02315ad50c96;0x75daaa7d8fb92;0xed90772c6b3ab;0xf0b36d3302a6f;0xaf781ee1a6327;0x281a696ecb2a2]];
 [[0xffac50a632071;0x1dac3eff19cc6;0xc9dbaceeb5f42;0x6bedbe5069ce2;0xa6ed006ca1613;0x61e3055de9f40;0xfa2b7e026c650;0x30c0c5eb72200;0x64d302e7fbf9d;0x3bb381ebc1d];[0x1;0x9a114efce0c95;0xf94382b4f30a4;0xf122bfef2036;0xafcdc15e1a6c7;0xac15fb30502f5;0xe3c2bafba9df;0x8b6ba0f24dba6;0xce04467863e53;0x3f52e1dcd9ba5;0x89933f421c947;0x1];[0x1;0x74ae4b658c551;0xed79076371bd8;0x9f9d57eaae88e;0xf35d787f4122e;0x6aa7e6034137b;0x1d69c7159def7;0x5741d90d8800f;0x4800eaf647eff;0x9de8e12103171;0x11d127a41364];[0x0;0x1720f22147a6c;0xb9fcfce0f231;0x4f50c129952bd;0xd22e1e9023d66;0x18e53aa8ad85a;0x1b1fdc33aa097;0x321a3e7beb3d8;0x7360be1fb9f7;0x5164470384130;0x76adcf88d3dea]];
 [[0x8a81a92dfac32;0xf237bb5dcf043;0xa7e77ca165ef6;0xcfb2c5fd9a7fd;0x6f0674178c0d2;0x5eb7d1129efd5;0x3365f21406fa7;0xb2debf76f32e4;0xaa01e94d89b60;0x4b034bef636];[0x1;0xe9eafa227e954;0x15b0cbd0a9eef;0x1f142dcd7363b;0xb32732281e4a3;0x456bff7889292;0x57f10b94ea864;0xb6f5e013342b3;0xa2c156223a54f;0x5ab62efb9d59e;0x6a8ac48b82cb3;0x1];[0x1;0xf7f22d04c384;0xc92c1157c9820;0xb278373e2ef28;0xbeae495b78cd4;0xb1c59aa8afdc3;0x24c3a40765fa1;0x157af3707aed4;0xf3f0af7681096;0x6341a1bf84580;0x1e2e783c382a];[0x0;0xcdf49228e71f8;0xd4aa4e9be059c;0xbc158ce8757b7;0x19c2f084cdc0d;0xbdbf402d81c32;0x1cd2342fe972c;0x46063f6a2c94;0x3491165e2c356;0xba51c8952cd9d;0x948925bc9b986]];
 [[0x49f6a219bca32;0xa8fa25ea52d50;0x32c5517940aee;0x718279131cc7;0xa07b28233eab1;0xb0ead0979346b;0x108c43c08b534;0x6ae08098b54aa;0x2b10725ddf20e;0x678305211ed];[0x1;0x2c3cc4467a98e;0x279f97f41d973;0xcd15a16f5055d;0x9b05102a3872;0x9086e8ddf2a3b;0x67168410fb5b3;0x7d05b87fccf1a;0xa7027b46baed4;0x4c9715efcb947;0x314e355505fab;0x1];[0x1;0x3406013ecfb84;0x3c7b0a580e49;0x5c50dd74b4230;0x4b3b8ac0e2cd2;0xab5f59f2a8efa;0xdb7ac7a5852a8;0x9b09c15c41811;0xd56e01144e90;0xc1e76f1c28e38;0x221cff7f563b];[0x0;0x87dad6ccf1d10;0x6d2b54f71bc32;0x1776bbcadbd94;0x4807a351bd8d;0x59291cef24dd6;0x6b0fab8faeadf;0x916103a0e0f3c;0x45d383dc6aa65;0x323f3ac87ac61;0xce30cb119d1c5]];
 [[0x595ded8611bda;0x41852e357f388;0xf222962dc4a26;0x5a313e9cae3b0;0xbf0651e9e6f9f;0xe2b64521d7072;0xbc5b721a93a4a;0x2abf56ca1e590;0xe747964b61147;0x514d8ef2c93];[0x1;0x12a1fbba71a70;0x758e8693bd1c2;0x4022668d72021;0xf170e3585518f;0xd3e3d586b0a4;0xb10a6063680d8;0x895b7653ac741;0x4b3552b38a62b;0xf4f1d118898c5;0x5e56e75816d17;0x1];[0x1;0xc406106ef5164;0x5fad01e372be9;0xe40e0f784f560;0x7c81e586fcb96;0x9dce92e02ef7;0x2b50a83ca27ae;0xfdd8462cc0e71;0x8bc27ff76e011;0xfa02c9f18006e;0x1f2be7b733ed];[0x0;0xeb5f2a11d47d0;0x822470ed9e2c3;0xd1798f8250043;0xf67f88ecd1b75;0x73c9a14bbbf99;0x19c6a92498011;0xbdbf0c3187d8d;0xf712eb23146c2;0xd0e35b0aecd68;0xa264c66cad71d]];
 [[0xb9f603b70efba;0x4f0cd5ea21a2f;0xe1b583f10ebfe;0xa550a736bbad3;0x734225380f5b2;0x4285e46ebc910;0x5ebf072039ad2;0xb92f51f5e4b74;0xc7fe0bb282394;0x27cfaf76cc5];[0x1;0xd757100b4e45a;0x6b4a05db48a53;0xaa224d82c1092;0xa865574ab37c3;0x248c210ecada7;0x814c6af5c9aa8;0xc121fbf7b421d;0x3cb7c392feb6b;0x777ffad333217;0xb19edef4ff784;0x1];[0x1;0xf5e580cfad6e4;0x27e00dbf65deb;0x54f2579b1fe9f;0x4a0877d39e850;0x3350d9b5a1a3e;0x2466424c97674;0x3c0f260506f95;0x7507cf10d3d50;0xea5896c5f069b;0x1a119b69790d];[0x0;0x840756eabd856;0xf270f108c1b19;0x366bcfe7e017c;0x94e8ac4e7f2b3;0x3bb75cc913dbe;0x84ab037f19cda;0x6d68435041852;0x255efc5aa2802;0x79282094b1d98;0x4f73d16f14eb0]];
 [[0x4c325b8b7a13c;0x2acfb84221a36;0x5fee0ef4cb4c;0x524cafd26b51b;0x98a2d4ba6595a;0x921770d49771;0x5c9a6a1e52e7c;0xe5abe6d979bdc;0x478b63b3360d8;0x54ad76b697f];[0x1;0x153db20234214;0x5f5d1908a4ea4;0xe836f50ea603b;0x82f92e698bed6;0xe31553e89d050;0xf9012b7dcc7e1;0xeb1d576b73b2f;0x456c92886ee13;0xcb94f8ef2fd99;0x5799bcd960169;0x1];[0x1;0x7825118ff3d10;0xabba6070ac7a2;0xa42f982c4a3cc;0xd1d432804f40a;0x3821d492e2516;0x9cb4a583f6a41;0x5a90ff14eea54;0xc505f83d42eb1;0x3564f078354f8;0x108439a504ca];[0x0;0xdc7d197d640d8;0x642c5172bc7ec;0x6e85ab15afc95;0x600bb3bfbf8b;0x4d1728884080;0xa0de9bf1dc5b9;0xfb33b777c85da;0xfde92add9fe83;0x71c1dcdce1e24;0xa95e1a331cfa7]];
 [[0xcb33209aed138;0xc199c2cfd3647;0x4d5740de60bc3;0x4e6d68565f1bf;0xa671db4e4757e;0x879bfbe185ad9;0x9e07f11f22aed;0x5c51f1548e211;0x46df3f44b0e94;0x10ff8ec147d];[0x1;0xd86cb71b8d270;0x41b6f2e713038;0x140cb93155f68;0x54351f1a7a9e9;0xa9e7bb8ca221c;0x9f2e702a252b7;0x3485baccd1168;0x14bd2de5a69c2;0xea735b89521f3;0xdf5d44c8b0bde;0x1];[0x1;0x9b20deb371840;0x188aa40ce100b;0x5c2ea9a46951d;0xaa4fecc1bcc4f;0xe243d5c051e11;0x62176ed5bab1b;0x4b03466b7599b;0x9eb15bb3369a5;0xb5ff07b04c464;0x14ca0dd9740d];[0x0;0x7b1aa215af8e0;0x3b4ae44fad058;0xd570fe6caf112;0xfb698577375f2;0x75c7542063e8d;0x43b559268b1a2;0x9e1bd0a86fc27;0xe25b708a98a4c;0x8f97b3297c84f;0x21a84c6584520]];
 [[0x62395379c9de3;0x9676d4693fe5e;0x9c4a9c3251fa3;0x26e44514a1b56;0x13cd942ded3e6;0x1ade10c0d3b19;0xece5c4567240b;0xa672b2d130da1;0x3ecfb0494dbb3;0x4a38fc01b96];[0x1;0xede30c8d6659d;0x2018e70afbd10;0x655da3755278c;0x388c78aa3b02f;0xd5283e631ac95;0xcd0aa36b18f00;0x1549e3c39b17f;0x115a62a667cf8;0x892059b37771b;0x6c873ae0a13a0;0x1];[0x1;0x11cc1f5fb5039;0x924647300076f;0xf533bb72a30aa;0x1d0de54dd40dc;0x118c09089dc5;0x564c8a2cb9030;0x7436548c50248;0xbf93da54bfe88;0x68cc26270f4aa;0x157d532c12cb];[0x0;0x9795312dd65c;0x69f27773e2997;0x1fc08a2e44348;0xe371123bf1e1e;0x4fa45b7ec280e;0x5363cdb40d16f;0xc771e821e2701;0x8f9f90517b04c;0x38982dc7b9d08;0x938f09d2ff5e1]];
 [[0x3d7a1723f833e;0xd734110e81c7a;0x3c411596142ce;0x8de6298bc32df;0xe42c49b6ea695;0xcb88b2f6312bf;0xfa6fb83e70f2d;0xe2d473a0470df;0x8fe847e4d7200;0x6a06c31831d];[0x1;0xd7892d99533e8;0x539c5bbb3e2bc;0x8844abf29fcdc;0xe22eae68ebdb1;0xa755da707e940;0xbdf638fa406d6;0x925d5b004b848;0x58d43d8fc6247;0xb48467479b20f;0x2c18c4cac60ae;0x1];[0x1;0x804f7a14358c4;0x67555204f1e1c;0x5c9397bbb70bc;0xca88bc59d0254;0xbc3aff4e0d539;0xde76679a2924e;0x4df251ecdb80b;0x6e6b0927403fa;0x408a9f37cda3a;0x1114e0235731];[0x0;0x11afb063560da;0x4703d9a697b44;0x64f7a70f7e816;0xf9dd9a66bbf94;0x7161ec0360957;0x2421cff8a9a4d;0x9124fb3ab2025;0x273be2f69df50;0xeea79625e175a;0xd2b099795a448]]]
 (V [0xc22b171811e86;0xd62c006f9dec5;0x6aabc01974e4;0xf0d47624b289d;0xe05c3bdfe5c4c;0x8595452e3251b;0x8d4a80f7d939c;0x7177b89f2c9b3;0xd20c071ba92e5;0x5c96fd1dbe3] [0x5082c97990c86;0xd146793f2b5fd;0x79f9f556af765;0xef57bfd0f78e9;0x7466d6e76f78d;0x60f21b67dbbd1;0xb8b4f09d3025f;0x475f45d1bdb0e;0xc67b287b9b851;0x5037328bf73]) [[0xc5f707f802eb2;0x7141e7afc96b7;0x3f0712c9e06e3;0x8e7fb1f2d4875;0x4261484eb74e3;0x634f7fc5ccb82;0x1baafb9ad87f4;0x72d36bc027c96;0xa01a58c8f15be;0x2d5e0cc0128];[0x1;0xc3ff041815324;0x99cb403ebbe16;0xb186ed96de42d;0x48c7f2a2daa51;0xd0d3b2d04a79a;0x3aa546bf2a925;0xe6b15db623748;0xafaaa545ada78;0x423f70cc0b339;0xa5f220db180db;0x1];[0x1;0xeb0aa0f5d5d84;0x4b45bbf2109f2;0x1b74484599398;0x280602acdb948;0xc305b5f23afa4;0x214a0634bd3bd;0xd7226cc172fb5;0x3c0384a358922;0x860056508ac3c;0x1e2ff510d8cb];[0x0;0x5287fd581a8de;0x684795d64491c;0xabc451acb9ce0;0xb3cee3586e40;0x70e35272baf34;0x4468839cb7a30;0x1a63ff6cd8d76;0x82e6e9c9e386c;0xb57646e7cc02d;0x59420e81ed3d6]]
 [((V [0xfc5e8f6a625f9;0x7b6067947a60e;0xb62cb7390dd32;0xb9d59ec9871c;0xd501dcb2a3320;0xfe6cac32d8a46;0xe046a008ce760;0xd29cdd9df66cb;0x46ff7258678fd;0x157db6863b6] [0x91cf9e8370299;0x57dfe965552bd;0x86c1893cca8e2;0xc905691429d6d;0xe5f0329148f7a;0xba790bf6bd87c;0xaf3d207796fd5;0x13608b457dc54;0x6504ede615d0f;0x402b5f2c1f]),[[0x66f9ff436e70b;0x5194ea2bd5bff;0x779caaf20fe28;0x10d6842dbf690;0x303034de33667;0xe7ca1f8a23bd;0xe40a3fa52c8a4;0xa835c3cd55416;0x226fa83cadd99;0x85d1229998];[0x92db8e54f09ab;0x324ffd37c2465;0x559a944b64f01;0x5f6b96301ead;0x11821901a2773;0x12dfc4183a881;0x37609710b0259;0x8aa5b755a6d08;0x2f5e1a1e668a2;0x1fb197638d3];[0x0;0xc3525bf977e1c;0x85212369dc720;0xb68227f27c8b0;0xbea445b7bb385;0x4f5c07c2fb306;0x71c80ba6289b0;0x19e1b77700f3b;0xae3fd3f6f1670;0xf6d8916a31e62;0x3968f2ed94];[0x1;0xdde3b3e603544;0x7fbf9587ab36;0x43987c4e609d;0x82539d0a4cabd;0x17752f0e58984;0xc909644d6d74d;0x60d24dc340ac0;0xc83e91c966bcb;0xc1d8960faf6c9;0xb3adff0ab2e];[0x1;0x944a1c1248869;0x7b6df31f0ad5b;0xef0cbedf2cd0e;0x6e375acfa4e05;0x2a5e9f8b55efe;0xb394db3ed1395;0xe791cca098513;0x9ab4f2fe4ac58;0x64c3e73054800;0x19ccb7b91d58];[0x0;0x79f6f5374ae6c;0x299002171b11a;0xcaf20b692e205;0x754b4d5065a62;0x5268c203e7a9e;0x1acac0a9f1dfa;0xf35b958fc8b83;0xe891b0f7e4b06;0x7b51e2a68c435;0x101eb2db3c96f]]);
 ((V [0x74855eda8db0f;0x28d07aeb59fe4;0x4e521d73fa69b;0xb76b2bae27909;0x585f87babfa4c;0x28b144cfa0f1f;0xe0f5dd4f10020;0x2ae5d1b9486e1;0x296b6ca75c1c2;0x5fcfa54ea19] [0xea29df9d0a269;0xa9d59c7c36ed;0xd0a4e8bb7c298;0xcda35acde0a54;0xf1b9421d6e472;0x86ada9b4bb007;0xbacdb4b8bff8d;0x954a5f71f857;0x8f10f3851101d;0x55f3272acd2]),[[0x411ae7fbd81bd;0xe84f69de57542;0xcc7a5d0332ecd;0x21cf8acd31a4c;0xbdb626a8b434c;0x1edf6d6818940;0xff68e25094045;0x6c290eb0aa472;0xd5e8cc2928193;0x16233d953e5];[0x277abd06ea6e0;0x151137bce3eca;0x7ee01577771f;0xa4728d30847c5;0x31b7cd36b3b03;0xf26ddc59a53cb;0x6d888c52123e3;0xb8e0c0cd4f9b9;0x7fc12841be86;0x6c665143644];[0x1;0x8b8fd683612a1;0xb24d96d06f84f;0x9099013ae75c9;0x8cb691bb18bf3;0x424de1f0eca28;0x113fc76118430;0x1f1fec48b6325;0xb4947033c097d;0x1c4f0753dec81;0xd530e72b3a9];[0x1;0x7b64c85dba84a;0xedc3328d49c7b;0x44288e6a8c6ae;0xe554839092074;0x2ac2a5630fd08;0x82cc7cdb830ca;0xae2b73c9425c8;0xeeb54039422c2;0xcc0d35f4d0e0;0x28902c3b1767];[0x1;0xb451987459a79;0xd8f450bfa1e0a;0xd735024e1f6c1;0xe9b46cb1a665d;0x9b6372769bd07;0xb6fe664f852ef;0xb78c01ff03c39;0x6efba51da4415;0x7cc45c547a1f5;0x111c1fdd7180];[0x0;0xcfef18b47ec1b;0xf226000cf317f;0x1569a98c7623e;0x19f3881e8863;0xd397cf88da56a;0xa327fe84c95b8;0x70dd7f97224d2;0xf3b8946f49fff;0xeb9fecc35f754;0x2b9bd822a36b1]]);
 ((V [0xe3e24b8d0ff99;0x7e13c7c31b095;0x840ae214b4bba;0x51851b34fdafd;0xfe3348bfa6e35;0x1934e6ab3de1d;0x6afe9ec8ec7f6;0xb9e090f22d337;0x8c20452a61b0a;0x5ca66cf4995] [0xc9b1e4a0d71eb;0x4f845e01d8217;0x418d8644f1ba8;0x39e108fa021cb;0x54c40acc13868;0xba7f9b6d81fed;0x18ac4c6e8bbc7;0xfeda0b031c036;0x1ed2b0d1a9e59;0x76eda9eab39]),[[0x13eb908dbb202;0x37aaf0b612186;0xd5bc55ae03e66;0xf7f2c72f57933;0xe8d76bd34a309;0xb6c8a1c4f577;0x51b188c0690fb;0x8b62840c7ee65;0xcb65ab08ea3d1;0x55255cf59d];[0xe17656e1660be;0xf7d91f67a3f0;0x4476b7ca0afcb;0xf5eaf385ccb2e;0xf9d54e96edc74;0x9f570f26c136e;0xfa1e65bbddd4b;0x5bc30994be851;0xc076bf3ea379f;0x4c82285ee98];[0x1;0xbfb6a3beaee51;0x9efd5f80b0dd8;0x978ef135d8242;0xdf7ce67a1aa76;0xb8f40ee19cf5e;0xc21e2441bc868;0x17c3a664728f0;0x2105edafe5611;0x2f82578ec7301;0x514cc6839b7];[0x1;0x23219fa4ca964;0xfbacfbf9f48e4;0x8828e70feccb;0xa4234a5bd946;0x75ab7e8b93e46;0xa90d6378bed69;0x2dccb9e6c8995;0x632f485e41035;0x40b205027b9cf;0x1c3e760628b4];[0x1;0xccdec44cccdc4;0x9def17104e012;0x2bbd67dbb97f9;0xdd0a5c6cd852;0x1b00ca651829d;0x22bb546e23669;0x81dc92849179a;0x63fe8ce8440fd;0x4ca9d0e013795;0x23852cb795ac];[0x0;0x73536f5223fd6;0x4526035ad5401;0x617c1d88e72fd;0xe0ea89cd4aa04;0x1f8b30e625e0e;0x2ce474c2d2b44;0xa31d1741338fd;0x855763771e89f;0x3e3a80b4733d;0x9105df7122e2]]);
 ((V [0x5449b501f3c17;0x45fac6af1db3a;0xc36e75fb55ec5;0x808cf2d860d0c;0xc6e2fb652a072;0x3ff4b6c0e671;0x21adf4705178;0x191b39693ec31;0x6887e57fa28dd;0x5822ca0f8f] [0xd55ff78326469;0xe2398bd22011a;0x299dbfd8bf217;0xadb729ff5820a;0x27ec4d6bf73d0;0x92a8fb8a8758b;0xccc26c61e8eec;0x71f3dfd49bd50;0x5b2c27bd00cd2;0x2de08949bf1]),[[0x58fbe3dbdfc7d;0xf4caa40b31e45;0xef770faffb3b7;0x1f0c84d75dac1;0x7ea09d1a5df6c;0x5734cb8c275be;0x4181c941e1048;0xf0c8064c84117;0x3a8ac39aa1632;0xa94fc8fdf5];[0x724bdf0dd4b21;0xec64678b5590d;0xac1d75c80c270;0x9a4d321b550e6;0x2fb349df11469;0xf7a1f9030b687;0x65a5b89c565bb;0x8c9456bde9442;0xe63e387d83d52;0x470a1959f32];[0x1;0x7a5d3ff5a5be1;0x4ec6eef63f62b;0xa1085f3e51d7c;0x93aa343024692;0x770e0d6470b16;0x626ec464e0d1e;0xf6e53e6b06904;0xe19eb4606bd37;0xdc7a7c29eb9d;0x4b041db152c];[0x1;0x93d1d32c56c9e;0x4e11d92dc31c6;0x4697312f50386;0xca7268660a488;0xc448dd9b4e85;0x34b0ec51fceb2;0xdae260d0b9072;0xfd72fe0b25994;0x4eba42395b834;0x196929aa2f13];[0x1;0x43622e5ce31f9;0x22c0e2edc864d;0x466604aceaf86;0xfd322fbd413ef;0x6a919762d953f;0x674743a1dd1a1;0x56fac265ab4cf;0x884e0c233e9f8;0xf742d168c16d5;0x17cbe1833dd5];[0x0;0xd323acad578a3;0xa119d399c2495;0x489a56f243a1a;0x426be1973d24e;0xc263486ea4610;0x5da4304cfaa91;0x5219100db37b2;0x82222274ff4b2;0xd7cec4187b758;0x13f225f8c7dbb]]);
 ((V [0xda64e2a91cdfe;0x926d90d603ef8;0xf6067007fb7bf;0x2117dff346b03;0xecb0356b35545;0xcf3206d2ec718;0xd0e8845ed0567;0x7bf65c7776ae4;0x67957786caf03;0x1ec6a00e258] [0xfeff59c657a81;0xd1b84daada73b;0x4dc9a218d644a;0xa803c6b21c6a3;0x695eba6d0a2f6;0xf6f9e092c6fb5;0xd93e4c29421a2;0xa41c515aa1216;0x1f2a13702a699;0x219c0000c2]),[[0xcd7110938ed27;0xb35941d256ca9;0x48c3f2d091102;0x84b91258bcaf0;0xc62742d8e5ec9;0x6e93dd61c23e1;0xb6be559073869;0xfde23b4ef6061;0x60af96014ec22;0x302c72ba6c5];[0x2d647729b23f4;0x7a61e9154442a;0x6f695f1fe1c19;0x890cb2683a502;0x7722859e31ddd;0x75e3346a145c9;0xf0c739f2a3aeb;0xdf979f5c1a5f9;0x88e7441d19267;0x2a76b6915c];[0x1;0x994b5b19fe281;0xf123e59872a0a;0xefeedbc08090;0x1a4a123652d5d;0x7211553b488a9;0xa8b2a56487ad6;0x2267c51dc88be;0xbe87755f07986;0x4afdf99b7a164;0x51226f2e19];[0x0;0xe75be232560e2;0x2831990a99a9b;0xa637744d7dbe2;0x4710d8826a08a;0x9b2d85f89d741;0x1382aeaf22295;0x516933455bad5;0xa3e5e405e85c0;0x33e37fa9884ef;0x129bbf1cc61];[0x1;0x2202854840661;0x15c9ed8c0a9b;0x9cb7beb651dab;0xe82c5c62f0ac8;0xdc78dc1ba7e58;0xec9fd59ad0a;0xca61579890b2e;0xb247852f5c9b9;0x6f0c943f2bdbe;0x41748d2516a];[0x0;0x885e52e1566c8;0xb7ed95e78bdfc;0xe02eac7353df4;0x5804e709778ad;0x9f322ea8f9651;0x60f5523067a73;0xd5a9776a459ae;0xf26070834f73c;0x7b344bbb66786;0x601f9ae389201]]);
 ((V [0x3ae2676c4edb;0xa88a57215ecd6;0x19d574ca1aaa6;0x807481f382020;0xd795b5d30028e;0xb458bb1b8a9a3;0xea86e2fd1c5ff;0xb0a3923eade34;0xb70f3b8375ec;0x464b346972e] [0xea684e32ce4d6;0x88320b3f2ddb;0xc8d7f3f97edbc;0x7f0e0e8d64365;0xa067761237b3e;0xeaf16d47da32c;0xc531af7bcfef1;0x4346f2e85da8d;0xb95e1d510e77d;0x69bfd23cb97]),[[0x5ecf7e9032f57;0x496d1510f14d3;0x2f786c04eb6ea;0x21dcc16fbe2d7;0x4db4b771eabd6;0x81129531efb6;0x99320ba6bd08e;0xdd34c42f81584;0x737a7ba14d386;0x5519baf77db];[0x3318f7b419295;0xb6e7356730719;0x647a1e225cced;0xa90c9a41b3ebd;0x2aecc0f99c58a;0x5123ddd0c2000;0x6b13f0e8c4005;0x8773870b41ed2;0xc712a19f30dc;0x7d3bcab35b3];[0x1;0xb1b725b76cdc4;0xe8c7ca8590aeb;0x7bc6349ab900c;0x9bbbbefa3fa3f;0x2dac73a83fcb1;0x1411f67a7504;0xe5fd07214c509;0xd8ea7db55aafe;0x30ddc6c695bd2;0xf311462820e];[0x1;0x3c43f08a3cbce;0x7030abe2393bc;0x2814463c56e6f;0xc9150e9c9f6e4;0x373c4d39a75da;0x2a0b4e9b65bf6;0x25b8b2ec03497;0x195c921f34277;0x16508af67a64f;0x2ec9bb5021d8];[0x1;0x133c3d0b21001;0x2fd64d94ecdf1;0xb7c3d7c97ade5;0x7bef0af164079;0xd287c19830d77;0x3447c603f1f5b;0xbe358a2bb6153;0x104c096daa08d;0xdbe1bb3be2fc2;0xcf1cb78eaf1];[0x0;0xdee679fed6242;0xa1b0da38b6718;0xb17c0da2970d4;0x39783240452c7;0xaa28747f9bc60;0xb47726f5f40c5;0xfc6376585b7e2;0xc4a1b4b9a17fe;0xd6f474c12d332;0xa996968956b57]]);
 ((V [0xc2d870418517b;0x977bdd85d526f;0xd57e6ef285f45;0x4f5f25d22ae3b;0x8d09cc2f5fc8d;0xfbde351b646c6;0x110755a0da47b;0x6d5dbb90fe4cd;0xf6b66a5bd8c24;0x39b1f8cd631] [0xb937597588d08;0xe3d8030241cde;0x78f99d25bf278;0xc991b4e91d5f9;0xe261e155a9a00;0xb1697ffb3105c;0xa079b7ee77230;0x1afc30dd20803;0x2b94ae0131831;0x33490505577]),[[0x5585ed4474969;0x8489b35fa8993;0x8de844bdaa75b;0x4b39e4d787d3c;0x6c2052797d377;0x346fc90f1cda8;0x55131ea9feddf;0x8268fec872e1f;0xe8a03f48553ea;0x66d95c4f3c9];[0x78c6d3b22f3d7;0x7cc34c407590;0xcc65eeb002d74;0xe6c5899a1c01e;0x37f084edfeb1b;0x548584e04cf7a;0x883fdc9ff79a5;0x69cecb1346d0f;0x9ab533af6d057;0x3f90c4495fe];[0x1;0x9178830c3df49;0xce7702fbea37f;0xfb12def2e9e7d;0xe8c9a437bd918;0x4abf8a4d6e52b;0x3640791a7e479;0x33aff44e9cec7;0x706de085a014f;0x4eae1d27993b8;0x58871b0fe92];[0x1;0xc49f79c125ccc;0x70a96fce8efa9;0xb3a03adf45681;0x13420f68b296e;0xfffe4e4cf408b;0xcbd6b6fdd5e0b;0x30cbaaeab50f7;0x1032c018efce2;0xf8dc08e57af87;0xd373bbbbf6c];[0x1;0xe40035a9e7581;0xc5a49bebe3fc8;0xd6bfb18ea8635;0x60ae904a41783;0x5ea06ba94149b;0x7a4dee9bcf84d;0xe02bca1f2bb2c;0xd54a5debaa0bb;0x965571f9dec0a;0x139ece70709e];[0x0;0xa1f7a6cd0509;0x367e4dfabb454;0xfd938b71832ae;0x302f15c14cb4a;0x3a017db492614;0xe4d1345d9f55b;0x1de306b774926;0x41625b937c99b;0x915e12bad94e8;0xcce99fcca1b25]]);
 ((V [0x985ffdfba3f02;0x7d2851371bbc2;0xd2499b27a554f;0x4f5422a272134;0x7cf3f7132de99;0x7d81cfd249623;0xb095ccdf9a289;0x920cb73808488;0x9a7ba2935821e;0x7a069bf17a9] [0xaa23a853a2c99;0xe105f8dd0cb30;0x1265352a90488;0xd378832546d16;0x8531f1d6171e1;0x321a159292f3e;0x7fd08e10ed8eb;0x90cf7a7243fef;0x1daf0b0ec5733;0x277c764e896]),[[0x1dad5a601b2a6;0x79b0eea9426fc;0xa3a981bcea53;0x28bc216e57cfa;0x80ac1710429bb;0xfde80440ec808;0x7847345c3f665;0x276271c7e5cd;0xc439aa636fe8e;0x3a63d64bf8d];[0x7fb6160977c59;0x98de4f6d12a33;0xb297a84795a07;0x662a55dfd14d;0xb7b3db8ee8082;0xe08f5734b9454;0xd9e33c1147851;0x2f287764074ba;0xa9d6a2f5ee0aa;0x4fe39cc0df6];[0x1;0x750d772cd4509;0x7071b0263d5cb;0x3a2dae27e8f61;0x9a4c7947a7a70;0xaa973898d00cc;0x625dfb563a6ad;0x4ecfc045747b;0xcdc184048a3b0;0x9f29e5daa2769;0x85c5c076d6e];[0x1;0x859bb1beb3060;0x1570df9719010;0x2c52a535c20b2;0xc88dc3921a551;0x87d468842fb85;0x9c14125ca50a6;0x585e3d6f80aa6;0x7452d19c0d900;0x53fce37f18c25;0x1b08b7f4b973];[0x1;0x8246edd06ff64;0x8b3b6fb26e739;0x453e056637e9c;0xcc091307092a2;0x1b05009e025ce;0x1dd4beb3a24a6;0x99d0ef05c1798;0xeca73b8c11956;0xe35da2782eb09;0x1c0325304c3d];[0x0;0x80c3d32af3890;0x5e34f100b4664;0xf2b11eed507af;0x7e629b2a1a25e;0x88d71c8b7b41d;0x63e9a1726c7c3;0xcf9acd7dca7d;0xba1c9f7e3d922;0x226a0f94876e9;0x742f2cf07fb7c]]);
 ((V [0x294086a68a2dd;0xc170df4e333d6;0xca3191769f3f6;0xe12e61de083b6;0x6dcbd751d0746;0xa6cadca713ebe;0xc7c3012ef8f1b;0xf52a47585520c;0x85b886dd9bdf8;0x7dd028f9142] [0xfea8075919085;0x92e8eb937dcc8;0x5059706f7cd41;0x7a4b48e71de6c;0xa9bd0f42a7404;0x36b477735757c;0xf8efecbbf21e6;0x2482689cca35c;0xb263a07384708;0x1fa3d2c03be]),[[0x17b4ca3a53de;0x9a434fccaea7;0xfa54c6462839d;0x8866176d7a550;0x1fc443328b11;0xcf060356a4b7d;0x146d9181d4ff;0x15d81b6c9c8a8;0x74b76c31ecc87;0x1a466a99c54];[0x35aad9c9dbc08;0xcfe714b376be1;0xbc0b743845e8f;0x5b316819c731b;0xdec316b4cde2c;0xcbb98d0e586f6;0xbbfd28df86c96;0xca084802c93d8;0xf4612b34ff3ef;0x3fccaff62a4];[0x1;0x438424bdec1c4;0xe3f76708b1f68;0x17229d9fdaba8;0xc33fe01fd8422;0xe3f60eeb64f82;0xa895bab56537d;0x545917c5edd76;0xa2c946800a06b;0x989868c5df5d1;0xb44c650a64];[0x1;0x15aa68df4239c;0x8d0cb8c01dcdb;0xe3a43107f34bb;0x1d79b53899245;0x44b183a16f2b7;0x918d903f0628a;0x8c2c38642dfb7;0x766b0a3da84f6;0x1a06055ae23fd;0x16e961dceacf];[0x1;0x81511cefb244;0xa0009985d03a5;0xf94188e11b3ee;0x6745337defced;0x5246ffa2fe117;0x3d46fbdbd1d5e;0x146cfa922d049;0xb0ae2e5ccff22;0xb31ddd3e4e090;0x2de55ffaca99];[0x0;0x20c44544b928;0xd23b732ac907b;0xc3248a47886e0;0x44c8e69154f55;0xe446b4ae8dd98;0xc9cc413529ae2;0x7b7d560f43e96;0xfd4f6a31b290f;0x12c21372bfd9;0x3418140600a86]]);
 ((V [0xd82a661748ac7;0x10a7e100dc05d;0x6a7c39914d68a;0xbc8bb22791330;0x9d5ec39cae089;0x5f855f332478e;0xbf479f7f4ecc8;0xa2136b67b2cb6;0xa06ba553e095b;0x7c28835f076] [0x44c0227f77797;0xe394746bade1a;0xb751534a6e88a;0x2867161aea062;0x432a29af3d103;0x8c0d48df25e56;0x7c0576360952f;0xec218ce7cc1d4;0xc6602d531af2c;0x6c1cd76f9fe]),[[0xaee28054c8f52;0xe8603c6f688ab;0x8df060fe46608;0x8ec4f4290086;0xee2678ff52390;0x5de2744b6b590;0x3b13f2a97ab13;0x3187afff18a8e;0x36e86b35da037;0x721c9f6256];[0x51441f0bffacc;0x6bc10bba3d8a6;0xb4d69f87c06d;0x7e4b14313cc74;0x6d986f2847b57;0x4b0935067df74;0x22e04764abd44;0x7e8b013820cf9;0x7a619761218c4;0x7485fb13bb9];[0x1;0x4d2f5bb6513b9;0x7adb3366551e6;0x4f60d911bfab0;0xf4e2ce7e55a8b;0xc846f96fb8683;0x682adfbd58dff;0x934af4b249a64;0xc232aecba7e33;0x164f950cbda0d;0x6d62139bc53];[0x1;0x4b936b653c5f4;0x9dc1f07620919;0xfa9ee2470f048;0xc767ab51e8d2e;0x298daa894c265;0x91ac964c6e890;0x5d87a07cf6f54;0xe89be71a57bfa;0xf9a3093e4c011;0x2b79d431881c];[0x1;0x20ac174353804;0x804b0ab7f59d9;0xb9358eb365daa;0x1f2dfe3f6cdf9;0xf63b9b99e151e;0xe65babbd0df61;0x2f91af24b72d9;0xc062bfc85cd3b;0xa6d76a094a697;0x2ef2befa011c];[0x0;0x2a39c318e3106;0xaffa27b80e9f7;0x7af971be69d13;0x8da72c592a6d0;0x789da2cb0d9e1;0xf0ae3552d00e8;0x62dca90903b25;0x2fab9cf0c7f07;0x50032a433e459;0xd334bfcc4c3b]]);
 ((V [0x58b6c3732564c;0x61ca15978e331;0x198487154ecce;0x598af6bc6fbb0;0x647aa1ba8f17;0xb8cb4811f711c;0x2125fd425e6e3;0x49f59a83a9703;0x30a8bb0829b99;0x40c3119ef8c] [0x81ed0ff731a84;0x5ff7f41dc2c99;0x26f984eb02759;0x8b16d2bd06d98;0x9fe5630392ffc;0x5550b7f2fe2f9;0x8475aeea23bd6;0x36a769000a2f0;0xf718e1a53646a;0x67044783d43]),[[0x48a3d8c5e44d4;0x9a8547bb41de6;0xdfd54b88efe1;0x5862719042811;0x8306b574619a9;0x2df6b7b6cc3e6;0x6c47a68c365ea;0x2903958ceef3;0xd40496457a116;0x669ee09228e];[0xd0cd4e2cf2d6c;0xf37fb266773c3;0x15d972592b8af;0x5e8bb5403da2e;0x8f601b8ba3ded;0xe4b8d7b583e8b;0xbff82b79ae724;0xa8ce2107f5bf7;0x32fa4a01ca4ae;0x2ca4311bb3];[0x0;0xb9502ffb09adf;0x466b0b36c13a4;0xa06407611e2d9;0x5f4dce31e9086;0x19d0f2b3d496c;0x3eb94b70bf043;0x41cc12048f821;0x1b369cf3bfd57;0x79be00f9832b;0x72da05374a3];[0x0;0x6ed2ed10c3368;0x22c159b72e946;0xac7512592e2b3;0x7820a4bcf4461;0xb8a956ec035e3;0xe731823ddeeeb;0xb6fa0ebe16f6;0xb21261f7f2a7f;0x568c13192b0bf;0x9c9cc77f383];[0x1;0xabbb8722dae90;0xce8dd6040bf86;0x77f77eee558e6;0x8a474973a59b7;0xfe20c6b3c4aea;0x90c6820a4318a;0x5f9d14a189ce7;0xaf504869b479c;0xed1b13d907502;0x21fe2359d2b1];[0x0;0xd22aaf3d79eb8;0x48abd4e067246;0x8932bb94f55d9;0x1658b7884612b;0x48c4d577c61e1;0xf9137cc28ab87;0xedfdcd68743e0;0xa4459910a16f6;0x8eeef02abbfa5;0xcc2dbc570fe99]]);
 ((V [0x30706127553a4;0xd356d457442f8;0x6beb0a524728;0x48bed853e8904;0x314a1c6e95317;0x4d5dd43be503d;0x4c15e85afbefe;0x1c1f5e1254643;0x412a0241cfcda;0x1342cf215e0] [0x76e2f81b90638;0x1dd7506e31242;0x4b60b2d8a11b0;0xd85caf1ad8e0e;0x59a77ca28f83d;0xa389476fdf990;0x60232459a2688;0x1f54539cbecda;0xdf36fc1fa43cc;0x307f58d7330]),[[0x72a7eddc77da0;0x269e6c8d98a66;0x7842ea525170;0x519bc98610786;0xa3dba78ea50f7;0x560f9a8de383c;0x971434544388f;0x161f57498382a;0xcab9f5ac896c3;0x709e8a83efd];[0xe7b320c817461;0x97a6da2e8d42a;0x54df2cdd95083;0x770f8c204d48f;0x8161572387793;0x7e46867663f3f;0xeca09d0af4be4;0xab78cdb7aaf68;0xa6daf16cfcb4c;0x666bad7be1f];[0x1;0xaaf4056889590;0x1a5c410d61b23;0x4dee45735f56c;0x69cc2739ed955;0xa7c3f92816342;0xa865e1524895f;0x6e6b655f8b177;0x13b3799a42ed9;0x6df0a87bb1740;0xac132011186];[0x1;0x6a4b3c50bd00;0x782cd044e814a;0x909c0b0e3002;0xf63300efdd961;0x689d91f471710;0x685ee13356a79;0x9a8c523099570;0xcd3f60c1a6f78;0xdbd3c33a7ad31;0x1b13f623a71e];[0x1;0x5ac817d016400;0x7ff296b4997f;0x252a7f064483a;0x77c90bfcd5232;0x367a177666b1f;0xae95b15fcde4c;0xd558fcbe06cf;0x7f2cbf93cbc68;0x4f51deec2cdcb;0xc67badf92fb];[0x0;0x703d686ee9ca0;0xfcf1476bc5341;0x99adecdb942d6;0x1aeb8b4fda06b;0xacec82267db53;0x38779af78ab1b;0x34e939f220e62;0x45be7da62066f;0x2a1fe64ef1fee;0xe0a6b4e76ac34]]);
 ((V [0xafb9095e6cb03;0x61a307bf5551c;0xc6ee987515cc7;0xf2170a42b33a2;0x2d5ca9f5d2649;0x723559820fee1;0x9f4616e6fe91c;0xc6a68fe87b476;0x2be01275fb184;0x755dac3ad79] [0x909e866d54dae;0x1b1c0354c7e08;0x341411ef8f17d;0x483ceb21d4cd5;0xa1acaa15a593f;0xe79dc17fe5421;0x677d99803aeab;0x3e1919e31d397;0xa6a0de451ce3f;0x572be17d38e]),[[0xeb7295bf5e162;0x43d23609831fa;0xa378b4bf4d5b6;0xccdfbfd2dfbc2;0xc54df91aff2af;0xc8e6b28818eb0;0xc124e4a6cbc09;0x79158f1fd24e2;0x9ef791e83bc2c;0x5c0a2ebe24e];[0xdaf81496203d4;0x6ee81d989e822;0xc42b32c721f31;0x147b265a55c15;0x26ad8cf199aff;0xeaf2ee2afbdb8;0xd8c1f6a55e3a;0xe1c4c9fabcabb;0x810d130d690e;0x5f4afc147ca];[0x1;0x735f8922b4810;0x6288cafae8c86;0x4f98b31b9709d;0xd3356bc327557;0x59018dc534ddd;0xd423a8131b3c8;0xe2ee57480f020;0x7fbcc890703d2;0xe3977ad76e4b;0xbbafffcc27c];[0x1;0xd1e88492c54e0;0xd07fb950b90;0x4f59c8a0232af;0x49e613996b2e3;0x719cc72ee1bdb;0x66ffd1522f984;0x8f49fdcf6cf69;0x45d8b24608a9c;0xbab8e55ca8871;0x1f603217412d];[0x1;0x177db98939744;0x6e43624dca4de;0x761ceaa2872e7;0xdd98d80759bee;0x46f74082c380c;0xfd44177ba013f;0x2b303fcb6fdce;0xac4e21ed74e59;0xdf4b99325f39b;0xf597f0fa735];[0x0;0x5ed06aac38de0;0xc434583ba73dd;0x428a9429e10e9;0xbe65b907639a6;0x74d322e5e05e7;0x4d5f41dd35ad6;0xf0192aa515b3a;0xf9c9ec2675b3b;0xbe84765ed404b;0xb71a86198827d]]);
 ((V [0x7a6dc033afbd1;0xddfab06d97cd3;0xd64013591b98b;0xf8527331d0b34;0x9b236f9bade61;0xb508b8d33061a;0x4d9a42011eab;0xdf3ddb7016568;0x3ce2376b2ff6b;0x16bef3e58ba] [0x63c21ca716a65;0xcdf7692ec7f80;0x7dfd2f181fb3e;0xd07ffa4b109af;0x730f248393a9b;0xebb3980fc1e7e;0x5f6fffd889828;0x30aa45e8b1adc;0xdee2ec1482c0b;0xa0fd20b23d]),[[0xf4a6d3a36efb8;0x992a8cfcd8caf;0x69bde16ad4347;0xca1aaa318ae0a;0xe7013651f8a1a;0xc69d690b5f33d;0x5c6676d3bcfb1;0x472debe0a130a;0xb29a79f5a6d5a;0x733a2184f0f];[0x208c820fe4c1e;0xa5a8cdd7ce7e3;0xb4adbe0d1c849;0xe2aaea5adf863;0x4773dbc999037;0xb37fe52706483;0xcf9c443c0c51;0x57a8f36b10302;0x58cb4cd10395;0x39a76c6e9f2];[0x1;0x8cddba6444ef9;0xb7ecd2cdda6f1;0x5c62dbaa51e7d;0x107d4816ee78c;0xda273feee0aa7;0x4e1ead8d65132;0x7349b2c852f4d;0xb6784ff694a11;0x8ee993d4af632;0x7b155747ee];[0x1;0x1b3fcab52dc20;0x1b4dc3edf3951;0x5df063d2560b1;0xd00fb47a2bca6;0x38840e81b5cc9;0x2595fbcd87533;0x494be80a01933;0xcf827b941ddd5;0xffba1f573745;0xbcfa83feac0];[0x1;0xd7247444e3040;0x741eb18f82490;0x6c2455e4b83e2;0x536fed3af400a;0x1466659ba367e;0x10b67b9d7da30;0x6af6d335b8a94;0x3bf48bd64add6;0xdcb804b75bd8c;0x19b3a0a152b4];[0x0;0x4e8eb526a7cc8;0xcb7738a7820dc;0x89dcb7022a857;0xf9a0727cbecbd;0xf35d32ead7f43;0x5d7f13d6a21a;0x1ee8948029bcf;0xa8bc93e3308fb;0x43564f3fda310;0xe67a3356a587f]]);
 ((V [0x158f3aaa4be97;0xe216d77067bb2;0xc82a984806dc2;0x385dfe7b87573;0xeb18225fed3b7;0xe9c0464cf9561;0x231e9426a730d;0xcb3bc98e89f1;0x118dd55d812bf;0x6174a5729ef] [0x94ec66b4c2bd5;0x62e55b771319a;0x4d3893e578262;0x33351985d7e5f;0x1e7e70006ff0b;0x94e71773ce0a7;0x2a8b32453d0c2;0x6e5cd99446be8;0x6466c07832863;0x68350935afb]),[[0x86957a7f0cdfb;0x6b7709b6bad8b;0x264f45e2423ab;0x1077581333348;0x5e2177e76ae9c;0x6e7585a9bfcad;0x65817269f453d;0x40531a5db8bbf;0x2b9ec2bec7049;0x7e3855a3052];[0x310c7a8fa38ca;0xbc23bb667f201;0x13b64850dbb2b;0x20fd1cfcb4a50;0x59529d45c0878;0x7282e3584a865;0xcc1e871c8c13;0xfc53ea088a301;0x8fb2f35f37124;0x7620cf47368];[0x1;0x5a7aff23b0811;0xd339b6838b984;0x89a611ee09bcd;0x1a09ae5ee37c8;0x6f666d39ac724;0x6baa1c22bb98b;0x1e1858b343593;0xed4b0ce123bc8;0xfef5e10ae242c;0xe836ddd9a2d];[0x1;0x4bffe9d18f82e;0xb7708d74bd69a;0xaebc989c88632;0x2b8a9dc8fcdaa;0x198dc531601b7;0xa58d813014f9c;0xb9fe7270eccf6;0xa578af88a19d;0x921f16395cad8;0x2b0ecdad6eac];[0x1;0xfdb30c5907809;0x7ecb72db18c48;0x67641e1a45194;0x6e887d9a5d8d1;0x89ddb1b486804;0x7393a290282ce;0xda6b849cd9372;0xf55f8d3986c3c;0x53b6badc84772;0xa16e1917526];[0x0;0x6b8045c595afd;0x65ce813f4611e;0x85ede4bf82e63;0x428176e18b83f;0x6b335f2bd0241;0x72349818c9654;0xa7abbc0e33ec;0xa59312c0dd017;0xe7b7fc2b5322a;0xfbc0ae28eb486]]);
 ((V [0x2daa9592080ec;0xcc33d480c2387;0x884d5b72a7cfc;0x1bc4bb55b6653;0x5cc2e0ef54d25;0x86787b8ba25c1;0x5d6c39170cd6a;0x2b952324ca4b8;0xb350aec662b5d;0x7b51bb47eb3] [0xff0d9d75ff153;0x6cdf7e9ea8bd8;0xeccf54f4e447b;0x2b8b400bfdd07;0x88ea4cb50a0cc;0x5653b8c5881d0;0xfc8e8546815f6;0x649353309611a;0x50163b06721a0;0x5620140058f]),[[0x32b8e6bb1905e;0x8e51ea89904;0xa1e0731e2b64c;0x5ec9be9463b1e;0x2d02e35564f8d;0xe0593c4bf4625;0xdfe0c27653ea;0x1d7a8d168dc9e;0x30a07c5e38b45;0xc3af2a40f6];[0x9d03f300b2898;0x41b3bd7d58895;0x83e2eb6315bca;0xdc8687d06c503;0x739944c54410;0x8045e1fe6d913;0x9993a3ab12af6;0x6e6d169574eb0;0x7b2a6e003e7d3;0x74558066eba];[0x1;0x691a42fc0e581;0xd951acfc53cc5;0x84a7a2885ff4;0x941ca51ed21a4;0x48a13c3f64258;0xfe089c5893ac7;0xea96857295b2a;0x47e39da5643ad;0xffe37c1d4d487;0x9e77cbbf68c];[0x1;0xd1f98ed30ebac;0x201bf179df447;0xa847c9c5e04b5;0x3aaac09b7d96e;0x7ce14172a7b1d;0xd2daec576123f;0x9fcfb34dcd11d;0x8eac4b57b1ca4;0xc7b01e9bd6c46;0x2a617158b708];[0x1;0xe25b5ea060044;0xf5b733bba0922;0xba77c1c3102cb;0xbc1605c68366d;0x336f7c1d0524d;0xe444f26ea2dea;0x1698089f983a0;0x88eca6922a1dd;0x51d72b6760638;0x27b4ae3b5deb];[0x0;0x97cd747bc5534;0x7fb8d51498a63;0x6ce865025cf6a;0x767e721d8f2be;0xdcbd3a5cf16ab;0x32414bd5ec638;0x520569dd908ba;0xbfdef6173cb40;0xbdca07c73e1a6;0x1702fd5d15bca]]);
 ((V [0x1ae13372c7fab;0x39b9846f3a222;0xa8131336810ed;0xccce2e90a4a06;0xd784bc624d89b;0x30be9656f363;0x230e4ed5b2b83;0x34c67e813f3d5;0xdbbe236caf9;0x74031e10c2c] [0x228b223b0e0d0;0xaeb8a386c072c;0xd888545925605;0x4cedf36321b5a;0x148ff7c8ca25e;0x6de98e7367d03;0xa250fd834024a;0x451bc09d78a0a;0x321fc2e4c9627;0x4b9b048f5ac]),[[0xa605a9b4e70f7;0x35c3da9f52db3;0x3e71fc8f29efd;0xc05eeea8e8aef;0x61e5781a3174a;0x29f58ab63b2ac;0xa2eeb4e08af02;0x304e001da976;0x41d531f3aa582;0x7113092bb07];[0x18f1294f0b7f8;0xf5083cbba4037;0x4e567a7dc0c2e;0xfd09f9e0acad3;0x8bcb41778e737;0x4cd21c1d9ce89;0x9e9bdb4c7c555;0x8d9711db9e26d;0xb1b875c8a62b7;0x4600d733beb];[0x1;0xd1548f7bf9890;0xdcada48f53596;0x21b555a9bc55e;0x7d9e2e88b8250;0x1a2b98298ff20;0x7662e7725010d;0x7db7e28247d0;0x495fe29a9a6d4;0x66a74f3f6f3c9;0x153266492c5];[0x1;0x4310bd3e6ea8a;0x86c92919d3f8f;0x67804fe8d8450;0x5b4bcb282e6cb;0xf2e5bc84f5c20;0x326150730494e;0x41f42a7b2a7e;0x1df818db78a9a;0x5b0a1eb6d5864;0x10bdaca089d6];[0x1;0x491d9f1da42c1;0x7c5203f282120;0x7a84f34a25b59;0x853b1a76c5502;0x31b1d9021c166;0x94a6d5344014;0x973487829c7db;0x6a04cb468bc2c;0xf55aa28d2538d;0x271698a3b553];[0x0;0x70231e36e2230;0x7a8607fc92801;0x2d02b38104ee1;0x21632e097d4e6;0x665480e0b836;0x93d9e2dda03ac;0xbc9bd199cc2a7;0xd8b00a8c077e5;0x4a24496012d1b;0xe15a23ac693eb]]);
 ((V [0xe1b438ea19674;0x87d352b88795e;0x3abcb3fba6432;0x1a6144191fac8;0xfbae74425ce49;0xae59bcdf51076;0x10650b3677a80;0x38296f01be712;0x980c8773f550f;0xb277a94b25] [0xf9701d39efb8c;0xccc50b3d1f052;0x293a3fb7e6c7d;0xcda4ed038682f;0xbad069e852dbf;0x8a05600ae3906;0xdacf781e73235;0x656dfd0e51da1;0x7664ee84332e4;0x62b7faebe6a]),[[0x30314341c38b8;0x562b93254ae33;0xd0b6f722fff85;0x71fc88fd04273;0x409adb576c568;0x9620a04c7cf85;0xb8c3f8a0ea8c0;0xae2efc4350c22;0x603ffd0e2f280;0x45d5de34f2c];[0x38bb69ca2762c;0x3a7ab3971fcd0;0x276f246286239;0x32f9507fdeda2;0x5ddb7026bb50b;0x80011d737d1e9;0xcf58cbfa5da9d;0x9d1c2b47332e8;0x2a84a944e225d;0x3ff9a2151fb];[0x1;0x14885d2c54e29;0x48005e1af60db;0xed1ad64ddc8df;0x6a6af5e1ea7e9;0x2edce326d5aa4;0x444f6426382e4;0x217bad17e4087;0xf348f8bfc0d8;0x39341b078f79;0x16cd9d986e9];[0x1;0x44057265bfb00;0x646c4436659c0;0x995e63e67e9b2;0x602b5f36d1fe2;0x32e7aa7607ece;0xa4e5bf799d8d;0xa5379c3a2e2b1;0xadcffd1cfa14f;0xa72d23cde5796;0x12d5a0528bea];[0x1;0x1f0a8956f2040;0xd0d133d5dd5a8;0xf583719ba957a;0x326cedecaecd5;0x5fc8016641960;0x3f048e0857a82;0x431646ededd5e;0xd462b6ccc44b0;0xe01256f896760;0x1c04174844ff];[0x0;0x6d4e8c9482db0;0x7077d876568a8;0x2308511d6f413;0x4b9414455fc98;0x70caa3bb53270;0xf2c28f93d0622;0xecfbf800d13ff;0xf527509e243b3;0xa94a3ddefe650;0x8ace21e2cb38e]]);
 ((V [0x245a2e623d421;0x2318c82f7e051;0x7078356625c2b;0xe35a1b4bacf0d;0xfb2aec0b4c2d8;0x63f84ad424309;0x866203f174c3e;0x2e03941ed4039;0x224eca9e97a75;0x3ebc8b00dcf] [0x29ebd49c198d1;0x5b0e622a76125;0x74340d737b899;0x10df46facd62d;0xe382b805317b6;0x2a666dc430699;0xfa08d26c7b2c;0xc7ab57f6d3e78;0xd5175c3e42cd;0x436662a4939]),[[0xe1deed3603c20;0xa22a261f4bf2f;0xbc8152fd627c6;0xc4c2d1f15559;0x5522c54a12af7;0xb44205fe26386;0x63c1a05858151;0x79cde66f7d876;0xe04f2fe5bde5d;0x4bb55950c8a];[0xfaea4ae7740f6;0xa8ed93dce8331;0xdc20d66976839;0x4f4104d1b212e;0x31bea92cdcc98;0xeb348c907717;0xeb2a44d757917;0x479d7ea5c958c;0x68b2b77766adb;0x49c21ad2423];[0x1;0x900460f82b390;0x4d96b049ad536;0xa736e617513f5;0x130581826c909;0x2e19d0a6b44e7;0xceb93ebbd1ec3;0xffc2ece184dc6;0x7bb3cd9e68fc9;0x4e4f1fb4c28d8;0x928b6065cdc];[0x1;0x93c57f4c4d300;0xf99a2b0d77605;0xa83f8c35aaf43;0x14e0863ffd768;0x48caf82bf3382;0x4541113c547b3;0xfa48e4615c093;0x95f61506a0c98;0xdb61c300fa425;0x145c54ccb035];[0x1;0x16145ad34c400;0x5262aa9dae83;0x438c42aba2a6d;0x9600d4d91c6e3;0x2e562256cb5d5;0x3bf96c4818aae;0x2d1bc6eca087f;0x4dcf8fd5840cd;0x448fa5c7c6f3e;0x7d4f7abb015];[0x0;0xf3387e1d713c0;0xe1fb0dedec838;0xd67efa3b444b6;0x22ad96478470e;0x3c7e00be30499;0x6f06bdb00ecf5;0xe2540cca26190;0x9f7194ea9894f;0x9449b303eed96;0x964ba8d35a62e]]);
 ((V [0xabe2ca2912f53;0x79844fad80029;0x82f3fc60ed24e;0xec0c279b4965c;0x646597674d275;0xf65f7b140761a;0xcd40aec85a10e;0x592111d37842d;0xd7e0108550cc2;0x56e82f033b2] [0x6ee2074bb08aa;0xd644bc9a91b02;0x743d3671f0ed3;0xa82c7426d22f8;0x466b9ed1be677;0xb6c2c7c7ba92d;0xc7e10aee032cf;0x9be4e3f6763f3;0x72b38a30c8d55;0x5cf505a6271]),[[0x14f679535d8e5;0x1c1287fa5fc2f;0xc56f5f02a5d3d;0x9af087d3ee760;0x18f283e3dbca7;0xeddbbc476488c;0x9f6f6a1086afa;0x4971fe3fa0bd4;0x69d30e2fad782;0x252b37e06f8];[0x584faae364d61;0x71e1e421bd028;0xa18c1860c1bcd;0x6a686ea99902d;0x5c703452a5bbb;0x15faf791868a8;0x81df63cf71f8d;0xe9da9da7069bf;0x9199781464466;0x2af044a60a2];[0x1;0x1586a3512e9b1;0xe768c75a25fed;0xc21db9fd70fe0;0x74f726f8c797c;0x60e67de0154b6;0xa68c44deaedc5;0xfa60f19f2c2f9;0x4f58346cb2eeb;0xab83de12b124c;0x3720ccea54c];[0x1;0xcc9e5973d64a;0x741d336472cbe;0x98bba26232484;0xa54e76d29edd6;0xf4c0549519f04;0x730417c6e3ec6;0x766e75f07c1b3;0xfd2fa4cb2ccea;0x1b338ca422770;0xda7ce73a788];[0x1;0x32387e41a54c9;0xc2e0f25c8595b;0x7dadc337cbc38;0x8475c0d3459a4;0xfd74ffa309e71;0x7d37de499b9ad;0x25e1fea3dfbc3;0xa41aaafb47f5b;0xa650470d649dc;0x19df77f24867];[0x0;0x6316f56b001ff;0xfc0b4c236ac06;0x42330b436fd94;0x202b683f5dcaa;0xb7043d7351712;0x3f867a5f9c08d;0x90c6b1a2fcd54;0x56782f26fc0a;0xe26c1f37d5ce;0x4933df618b1d8]]);
 ((V [0x91237db729188;0xbe684f9e67e75;0xd8a34af04162a;0xd1aaabc87230e;0xf25c154d4fbc7;0x1bf6d414e2255;0x2626046f0e65;0xe2bc194d84dda;0x3ef60b3926054;0x4f640493d09] [0x98f4b2102ca89;0xc5626eb08d398;0x7bde324833c4;0x1d873b900be42;0x15f6d96fdd2de;0xd74dbefa5e072;0xe6779422ab046;0xbd61e289d3cfa;0x9acb69165c911;0x74f12c34953]),[[0x5e284202a47d;0xfa7cf2b1ab1e8;0x85fef0f88a917;0x2b059f0c64d9a;0xe0acb04d57181;0x71d93f90b5ff5;0xef4fdf4e45a91;0x1c6c8e0c0a63d;0xf3e1e3fa8310b;0x1078fd88633];[0xc5c9c54f0cfea;0x7dcd7db06a8ff;0x918f0957722d7;0x54226f6a01c9f;0x434b5a0da264b;0x681a03e89b0;0xe01313ca19ad2;0xb1a9f5a4527c4;0x469c718443742;0x5c3b59f58fc];[0x1;0x22a91d73343d9;0xb2338cf0abcd3;0x630df8c49c125;0x69776ebf0e30e;0x644da4d4bdf0a;0x568ca47d6f43d;0xa5cfc22dbaf9e;0x193ec4e9b057d;0x8cdc9bf914693;0x7d750f944b0];[0x1;0xbad19e5a76bc4;0xf5d80a85fcc4b;0x2daf43946d181;0xa3b79512ab71c;0x59c2ddf84a8b5;0xa8038272d11fe;0x3caae49037083;0x9e0df5e79e289;0x3b0a8d5bd4a64;0x211771eae8a2];[0x1;0x99dd6b53141f9;0xa09f9812ad;0x3dc37a8ab69c2;0xe86ef6f164146;0x4c2c44800b511;0x6b3f5ab02c733;0x9579aec596ba8;0x385fbca3ac7ab;0x637004af004d2;0x1f84a13751f2];[0x0;0x6f036030c79ce;0x9e7680aac0890;0xb6050826e7363;0x4eef62faabaee;0x28b249faebeec;0xcce5aa1ae2cfd;0x8aaa14be065ad;0xc992ba3e98776;0x22b2289abeb46;0x1f5f9f4ab25d0]]);
 ((V [0xabc5bbbe84838;0x5d77651d29df6;0xaed36b36e8ee7;0x6a1f3275c1cb3;0x691e509c24f2a;0x97f4a2f75a4a;0x8c2c45f3c0092;0x5cb45a9f26a69;0xce88951a84e49;0x4172c84f532] [0x7ab3783d6314f;0x7894d1ea05f0;0x3c4619a3033c7;0x523fa4949733c;0xc4457183b5ee7;0xb4cb235b5517b;0xcbde01757cca1;0x127a80d8723e2;0xfa4873f77b87f;0x2de42dfc98c]),[[0x46c2deda6292a;0xc3683d756668;0xd78fe0f8f54a3;0x5c9442015b48c;0x7a95a249c9ef9;0x18740270c9320;0xcb2cf755e42a7;0x3589f936f4675;0xb02c2d4b6fbbc;0x30440048a20];[0xffd5679d90147;0xa90c00d183a77;0xd9adf7e6b26f1;0xa3e389e13de0d;0x626a15874e230;0x52a6c8b0694b;0xf2af1aeb41499;0xa37db43829cd5;0x11f44e1a0234c;0x2e8412b7703];[0x1;0x883bdcbd23440;0x43f98836d25f1;0x40fcc3152ac84;0x94e4ee92564c2;0x1cc125b8ab3b1;0x7ae793fd5d0b;0x6df7efa87e7b5;0x86dacd3a75c4f;0xbd42cb7ddb0b0;0x2bca61a143c];[0x1;0x2c20dcd23d5b4;0x34eb0bcb9caaf;0xb65bf0608b95b;0x67f881c69c0b6;0x82413c16d9932;0x73951d4e9fb7b;0xb0a73d4cc4d90;0xba6e32fb205ec;0x49b40bdf73011;0xbee74e6181f];[0x1;0xb812e830da2a4;0xaf0df1a744e31;0x5dd0ce3600354;0x1d3e6db0d1bc1;0xf4f0f21b6f4f8;0x4fc298127f363;0x2c4c9302c7159;0xb2628d5a93f39;0x4f7994987e38e;0x1ae427e9721f];[0x0;0xc43503091680a;0xfeee4dee5f18d;0xb166d86c011d9;0x8b4d559d811a3;0xdfa74971af5eb;0x5160745ae10c0;0xbc4d9bda8b3cf;0x2de8f6004905c;0xf91126c6024d0;0x5f77dbbbf3f8b]]);
 ((V [0xbf9fb0591fa8c;0x6855d47c2ebb6;0xed2c8a3803c12;0xe70e622559386;0x92822bb6c5373;0xa0c8e17b449b6;0xd36994218bb55;0xaa1e6b195a42f;0xc1cbca65dae4f;0x685d42b78f7] [0x9bd66c3b2f692;0x9e09e65192610;0x3c7e3b6d84676;0x58e5b9df1a7f8;0xe1d6247f7e20b;0x80bd20b1b2279;0xc6b926eebc22a;0x8237c3ca6d81d;0x79457b0f976a4;0x7847c909696]),[[0xb251172fd2ee0;0x906dc532945d7;0x7a308563dffad;0x9616baca660d6;0x8c2245caf3289;0xa4e47ae358dbe;0x7fe08ef8f18e9;0x5ae4a570e42c2;0x3cc5a586497b3;0x1daf9561c50];[0xb3ce94d167484;0xb96d3398a1d5f;0x2f985197fae10;0xf4ec0137bf908;0x2b3bdcab89a6c;0x7467cf7d406e4;0x97f082aac87bd;0x5244bf416374b;0xeae43e330169c;0x2daa020f43f];[0x1;0xcf2b3b4612840;0x2c72d6c4196d2;0x17180d756c163;0x233d4dc6f473;0x9ba05da734358;0x91c09cda2c45d;0xadc5b0ae7d0a3;0x548e88659b872;0xf8348e2af53e8;0x39dd09bff0b];[0x1;0x1ac3fe0d72a40;0xfdba0e7153327;0x886466a5a2e17;0xe4a746ed563f;0xba96e70844e8;0xfa04dbc33c3b4;0x77c6a51461bfb;0x7ff52ad786e7;0xd49e159be7cf2;0xfcb2c07a0dd];[0x1;0x72d199c670400;0x2542b9b120cc3;0xaea419f712ff1;0xc5f0e5e03d9cc;0xbe8c1c715afc;0xb1de3a9a2f5c7;0xabef3c6720803;0x973c9fe1551b2;0x983483b838e1d;0x1cfa32620f8b];[0x0;0xe6d1dead63860;0xb9eb05193b988;0x3cd2dd0ffd0f5;0x13bb7afbdc9d;0x69d3040b0f2b6;0x760c8e3860f51;0xddc309c382b7b;0xa61d4678cfb69;0xd87f9e4721dd4;0x3a277be92623e]]);
 ((V [0x9f2f2c007c7db;0x1054d51e6b083;0xb74eebeee5246;0xd72822fe24f9d;0x89e9a6e711a59;0xa577b7c2bffea;0x90eedbc132e28;0x4c6039a927cc3;0x81311329aa652;0x6faa1f4fa14] [0x91ef93fdfcf95;0x3c37233a7f7bb;0x6c9b91c8184e6;0x1a1ac7b681ab;0x26cfd687ff543;0xc5ee91cfa86ba;0x24cdc630f369b;0xde4442ff202bf;0x99ea5c58c4337;0x144d2781d91]),[[0x2b979fee899c8;0xc17ba2e3bc268;0xc41a57bdc070;0x825d01534302d;0xed1145593026a;0x87b8cfb80bcf5;0xcf68bdfaf25bf;0x22bfdf5e4cde4;0x6544b36f68ecb;0x315987d4086];[0x27d14a39c070;0x32fd0cc37e28b;0x1b3802c5d7b0e;0xa09bcaba1455a;0xbb01c5818ef61;0xbc0f865fcf697;0x49d66740e4b05;0x952a1dd57ff29;0x95864fad3014d;0x60f966b9174];[0x1;0x8adb736c6cb90;0x7067c60989919;0x2a7b5aad4d63d;0xf5f287926c15;0x9c46fe8bb70b;0xb51bd2c45ba9;0xb7aea7486934c;0xe2cfc0661cd10;0x62e88bfcf87ae;0x6cdafd14cfe];[0x1;0x45f3946bf7620;0xec9aa7068b50f;0xef282ce688f0d;0xd45805d957495;0x1acddd7024d08;0xaf231dfa70fb8;0x93e67afe6150;0x8bc8e8a3a7924;0xb1d47a807bf61;0x1e9192f51dc4];[0x1;0x4d6e307004840;0x96682acf752a3;0xe2deb6080907a;0x376ec7451281c;0x5e1deae152a0b;0x5f896e2faa36e;0x79bb48083a295;0xbf4188dfbdd4;0x3f14a82abd443;0x26dc27edfb71];[0x0;0xc0f28e550f00;0xd4fae7cc029b3;0x79ef9b739b852;0xb721fc139a455;0x304f9aed0fb5;0xa59b79719e9b2;0xd5b2c33990980;0x95b758fb4af3;0xfae25f5b8386f;0x61c86ec72b8f0]]);
 ((V [0x1e66e99ac4cc3;0x62983a161acbb;0xabbe1586b71af;0x3f33dd29bd9f7;0xdbfae7b52acbc;0x24c9452442723;0xfd6d5b0536858;0xaf4978a3e59e0;0xba07cd40060cf;0x203f022894f] [0x65555aba39406;0x8d43360393972;0xdc98846b747a8;0x7a4c64253faee;0x50a998800267a;0x8e74c338886e3;0xdb2628520d526;0xbc051686b4d45;0xa13796156863;0x6452761d6a1]),[[0x961cf7efa3df3;0x6ace85d9c72c8;0x9109f1b3d0ae0;0x68e9b72123c8e;0x9340a54f78a11;0x84e03d68ce9d6;0x64ce2cd6b0a3e;0x54c21c78463f1;0xa3af60889b5d0;0x3066dbbc7d];[0xef2dff973b10;0x195cd1632946e;0xa051b581baa74;0x57a671b9665a5;0x55e9522a9311c;0xd6670d4c1a451;0xb318fd228ee26;0x39349716337bd;0xc6be4f6715e2c;0x5dc6ea935cf];[0x1;0xd890ffd9a8549;0x79623e3c36a0;0xada218dabba63;0x990ff764665fa;0x49cfdae740eb9;0x8d2b25c3fa215;0xa4105084dcd48;0xd2652a4566bc8;0x2ab9caa04c2cd;0x5a23e4bd6b1];[0x1;0x55706cae4b5fe;0xa4e52c42397bf;0xd7620bef50111;0xc6a5c6936e0a9;0x68424fb1ac82f;0x6a80cf9d7498;0xdc65d313f4b7a;0xb3a47ec7b6319;0x34406e06337bd;0x231b3d78f6b7];[0x1;0x400e0b34d0799;0xa362945e54937;0x6b4a8b194d4c9;0x321914a738610;0x43b403a9361fe;0xeba14dceacd7e;0xbb41755e0476c;0x50caa845285db;0xbb22a8cdac8a8;0x1ff1434183a0];[0x0;0x25bdb131fe4ab;0x20ef3c59449b2;0x36be60e56682e;0x5966f313e2bcc;0x147885823f0a9;0xbfcc159516eee;0x37be8287ebf6a;0xffd4aff22d16b;0x9cb6bdb1d71aa;0x5208329d6f76]]);
 ((V [0x8de2fd04fc183;0x4e2ecf8fe23e;0x917fec9d42217;0x14da54de162f7;0x9df58d8ecb253;0x37717f44e7544;0x964eec80b79f8;0xd788555b1d15c;0xf3476fe24b8ce;0x75d96d66174] [0x6889e6cb742a8;0xba1dfcbab09a7;0x18b3d7602db14;0x9c23cdf517f3e;0x345a7ef2947f9;0x5b0fffdc1682e;0x555695eb5e3e;0xbba991580786f;0xe32416781e0df;0x2024f8ef227]),[[0x75416b1a0a78b;0xb23a277e3ec90;0x287d96ab3db1b;0x12ec32b64dd6c;0x9b1f0820d61f2;0x92ea3c8880440;0x12122dbe6f19b;0x5f63108201a30;0x8cb321c35e650;0x5c8da4d9479];[0x23ed7f2687d05;0xc7f724d8b66a2;0x2ff53db563380;0xca0416dd9baab;0x9b75ae4e942dd;0x4235c62111c5;0x6e2b9805c539f;0xfcc5936984fd5;0x406e3163cfa9d;0x4b3ac1eebaa];[0x1;0xea699d5bd0179;0xea22845384904;0xd48835738e352;0x958da93d5e9e3;0xbce9c5926e9dc;0xa373fcfa1c55e;0x43a4dcfd8c7f0;0x752a01cd7663b;0xe44501fe90e07;0x8e55e3c50ac];[0x1;0x61a5e301fb044;0x883fd0f6757fa;0x105d446bcd977;0xc0441a0c6fa5c;0xcfae540b48ec9;0xafc3818b3b2c2;0x2199514977c95;0xa7d5c7caa290f;0x3bc03eee6e2ad;0x1324bf9b9f81];[0x1;0x3f32aeb162369;0x2b36106812f02;0xff859a6398c51;0x4e9062c61802a;0x296b28146ead4;0xc355db03ffaf0;0xe02269664c7b0;0x443751bc1a1dc;0x151dd2689bd08;0x129c2a9b828a];[0x0;0xf41732edd7dcb;0xcd91a5c6eaa62;0x69da460a84e58;0xf657f7d655fa8;0x8c8650b32edd0;0x66e4161ddf959;0x1ff0f7f732f05;0xd909be919e3bd;0x17209d515a1ac;0xb83102c1e1df9]]);
 ((V [0xd7d9a75876907;0x39d979ff02c48;0x4480d1582db5;0x1e10005821bb7;0xf8c4749f91aa9;0xf503d1304e867;0x1f032738fee0d;0xd1c0e0bdc33e1;0x80e7da8e6f0a9;0x10a8bd26f54] [0x30bf7ec98d351;0x9862f57596cdf;0xe7576089d3696;0x820ab69eabceb;0xb27807576e6d;0x3d095a2476dd1;0x8e1bfb4442e62;0xc5d41054069da;0xe2d7026d0c041;0x67e8f6a4279]),[[0xed50232d820ef;0x3f474696f11f0;0xc2933630c997d;0x35cd755305db7;0xb46f841c5fb83;0x3a8da74437817;0x68785d23b2f3a;0x322937cf37475;0x7dbb549c73406;0x3e73fd220d4];[0xc2c65613b1800;0x5b135fe950f58;0xa147d1688e505;0x6b18e4bdb4d3f;0x94d735d042265;0x28ecb60e92e80;0xa2c393eb0aa7;0x8356004ebfb80;0x1e746d1fd15bf;0x63495834260];[0x1;0xee6b9dffd65f9;0x534f8554fe835;0x80058b441280a;0x9348ce1bf296;0xfdb4704858206;0x98d146024425d;0x90a887a370d38;0x165524bafb70b;0xfc8f6281466c9;0x5a11c3145db];[0x1;0x79e558f2fa2b0;0xcb5709acb952c;0xf5b365790cba8;0x18ae40d407013;0x6344675863b71;0xd4c316131f7d3;0x74a2d07bbd13d;0x7df9105d2d8f9;0xe02e3c2b105c5;0x23459fe7eaa8];[0x1;0x63d6e8ccbfe91;0xcca5cd3828f92;0xa3ccc5f0f206f;0x46318d76da003;0x1eb345db11b31;0x4197bcdde9690;0x54028a2bce19a;0xd1333c69ed6f4;0x6cf51c1111748;0x1da3e69927d2];[0x0;0x52fbb1765796b;0x2152d2cf3c500;0x4b2f8c604ed;0xa0ae1fff66285;0x9b983fb980ac1;0x721f5304ea275;0x56876fbdc12ad;0x70d20ef706a63;0x5ea5694fd7ff9;0x7c47b1a9501dc]]);
 ((V [0xf7428e47d0914;0xf57d085df7bee;0xfd15ab836c49;0xfd11230557ddb;0x6ab126fd73015;0x90bce1b7f049e;0x1a11939041854;0x42aa7e2418887;0x46a732291490a;0x14e4c568d9e] [0x45978d351ea71;0x28599900b0d32;0x7a20143309e19;0xf792ea73eb55b;0xb0468fb152a1f;0xadbad091e20a5;0x2970c406f899b;0x61fa007e6307f;0x8dca2659410ab;0x3354ca25e4f]),[[0xb194607cddcf2;0x91c7f7220aeaf;0xea91c78614317;0x91f2e00823948;0xf98e6855c89fd;0x15c8f80e2bb47;0xcb2a08a6746ee;0x4c0b1406f7331;0x47822afabf2de;0x381b88f358f];[0xadee0e7fef500;0x9853b8cf1c8b8;0x3e28d8a189d4;0x1b46fcac8bc7d;0x1adb9eb1f9ec;0xb64038c41db0f;0xf8336943bd767;0xc23a420e64e8f;0xe2a9ad815838b;0x58f28bbf564];[0x1;0x4fd1ddeeec4a1;0x3daaf9c2a5e85;0xfdc6b6200bd63;0xa7f23297686d;0x4d218c48c31a4;0x94c4a38f8f9ef;0x310800ba1ed5a;0xb0d33ff52816c;0x15c3bf87c3b45;0xafba09c3518];[0x1;0x9e5acfbbb20e4;0x89a11fa180e31;0x8712c63f7c218;0x6b66e58210623;0x7689f3667b174;0xa563a7c836289;0x4982ff0c85086;0x2e181a5bb4621;0x757520e57aa7a;0x1ba96ba0a30d];[0x1;0x5939a96492e84;0xb40cbd7a5e1ff;0x1d80d9ba2c8f5;0xa3894ab696aa;0x648e9688c0c7e;0x256c8271630aa;0x30fb8c6f04b01;0x4884f3242a494;0x2b2f06311f294;0x53d461ac41e];[0x0;0x5b9e7ce34639c;0xd23ba65c93f2d;0x502e3b0b7c2a9;0xe7846f04b152;0xed452884af3be;0xe683ad7e4006b;0x1baea30f5fa90;0xed670a892fe9c;0xcfc1188f37317;0x6f36d6c142c11]]);
 ((V [0xea9974fd63023;0xde17e397ff668;0xa9e7d5c0c2075;0xf0c50daa92ee8;0x348512a7b5bb0;0x22af7734340bb;0xa5371febce0bf;0x8466ac6657a19;0x245fba57223cc;0x77d297a202f] [0x8304f66513e1;0x7cfd592153bae;0xff44b1d6e5893;0x77c4fc041b00e;0xcf85ec80d267d;0xa29a99276aa1e;0x1db99de12c7c1;0xc1adbae22e4f2;0xdc0508eaf6ef6;0x296404abdb9]),[[0x1bc134249109a;0xce443b2e795c7;0x3fc9105ea1189;0x587a5fa9fc15f;0xd90172fdfb8c5;0x3f99ac124ab7c;0xfffc3fff88995;0x4c4ed684f4f97;0x7c61e59790e6e;0x27aef82e94b];[0x5c6c0750e8b90;0xc426fa9ec80d0;0x334656cdb3df8;0x199fed78ed9bb;0x18e57bd5054d9;0x859c0e3d937ce;0x3fc2c80c75128;0x8e0d7b4a1ef7;0x82c79b41d5053;0x2982579b71a];[0x1;0x9309e012c2890;0x4925b31639599;0x15b48915a0df8;0x73495f558e89a;0x1be1b6b378a13;0xd3591203814a7;0x49250558fd08d;0x538dc8afb4532;0xba55d9580a235;0x4f9b98a5a93];[0x1;0x5d13de7e39eb4;0x48c58a567ca69;0xf9c119cbb7df0;0x5f616eb465368;0xb76e8f3d4744c;0xb3fdb8a9f9f98;0xfab217eff57b2;0x20e4ef1c1ac9e;0x7447e30b069f4;0xd93a0ce20fd];[0x1;0x721a7bb174864;0xed5f04fcdb847;0xce9da5cfb9e9;0xd88fae2a92126;0xe5edd02b09c21;0xfaaaa24326587;0xa29572ddab346;0x59d455cf72ee3;0xd542b038a6352;0x136eab67e6af];[0x0;0x4d12c091b0c40;0x474a29ae307ce;0x7f92eba06e17c;0x27f829388eb80;0x94d51272477f6;0xfa4ee5cf6a355;0x74354f844dfc6;0xe3a982d8f6b42;0x970e7c803c81e;0x4ead82068c8b2]]);
 ((V [0x1201a060e89f4;0x50cae6812040d;0xe295a79c6f4e0;0xb874699640011;0xd944397cc5f99;0x7cbd5a5643619;0x2fb6e9e104b00;0x966f7e39f8b2e;0x2ec42e1417627;0x588133e3668] [0x9207625e80cc9;0x50721de41d94d;0x95aaf4ec3be65;0xf3dafe2aad8c2;0xb0fd4cf9f9df8;0x712bd4df2bfac;0x34f8eac440ced;0x26b9e7ba05e55;0x85b4291ee50f8;0x5e644862f41]),[[0xde0a20506b2f;0xf609d072454f;0x3bcc35b58d712;0xdb7332b79c66e;0x96e56865c0c89;0xd739bd9b2a6fe;0x2e09bf2337f11;0xd3cdb7d2be1a2;0x3d14b7d5b1aa3;0xd28fcedb01];[0x431dc33bc8102;0x8d714409d96c7;0x939d4b28207c6;0xcecb5a6c2c0a1;0x692892fe6d562;0x6feea6f8055eb;0x665e3957a4fa0;0x74aab47400471;0x9ee2a1f431b0c;0x7093964902f];[0x1;0x2d6bca5c9a5b9;0x86fc74b982343;0xafa295ed13902;0x1cb3fd50b0d42;0x574a34154568b;0x9b544b7d7cb9a;0x53f0651331e53;0x73ba8392219ae;0xeab3ba2bee0ee;0x70fc4026893];[0x1;0xec351d74fe5be;0x1f472080a6f25;0xeadcf9bb5a9ad;0x3474c1df84c2f;0x3bb0b21296e7d;0x220e698e4ded9;0x9688a12200afc;0x13c340b64dbb9;0x6c4852547b20;0x29af2b2acb33];[0x1;0x4294cbb01ba11;0x996357dbebbb3;0xd81fe7d4636f6;0x59217e2c1618e;0x61d3550f834b9;0xb6f39d41b8943;0x7cc582899c452;0x516f594bf05e8;0x33ee12ff3d563;0x28ef265ce88b];[0x0;0x4b3b916060a1e;0x2953970fef4b7;0x143f7c5b26d0c;0xd8be7eabeff27;0x3883fbf7c3d1f;0x116104e4070d3;0xc75309b090e55;0x3f124985a48c3;0x51861e16ccc6e;0x1952ca89a323e]]);
 ((V [0x797b2ab68398a;0x58fc7c1d550c6;0x2bdb967ae5664;0xf8f17f81d7843;0x715e17d06bfc4;0x922c8111ff962;0xa1c24f5f5b7e;0x9b59132a82ef7;0x5ce0605f07c8c;0x7ca5515f3f7] [0x63aab267088e0;0xbb0b9841c32c6;0xe6ade26ac820c;0x73558f5b14903;0x62950a013670d;0xfdf8eb764a9ae;0xf1e2ecfcb0237;0x869532b199719;0x21693865c3dcf;0x6f91ff27d3c]),[[0xd8aa871019a08;0xe4981bc816901;0x9b25f8bbf730e;0x3f04291fc5078;0x3f9cd8a59bcf1;0x4569f0456f0ae;0xbd79ff7baf4e8;0xe010fe258b824;0xcd0ec5db34a8;0x1c23006ac53];[0x586dcae55a1e6;0x460d688660a6a;0xf0608c68db985;0x32f3f627a33d2;0xf455de2d50e28;0x4491a7e18176;0xdc45d4910303;0x122f0020a1eab;0x7108755a9b24d;0x7d82a8db062];[0x1;0x535b8d6e8df90;0x37c071d1b67c4;0x5c858801d04a0;0xac0be2b955b3f;0x4c7a04d5b6fb8;0x65b34b4a4a204;0xd3000b3647ded;0x3c7236d26134d;0x6b2a0400ee306;0xbdd327f2b3f];[0x1;0xe5a6116d56f90;0x35d8588da6af2;0x146c351264ee6;0x69bd6474d5730;0x1b3f3fe0be713;0xc73166358abc2;0xde4787a54a61d;0x467c792829518;0x5b192ce342378;0x2c7907601cb1];[0x1;0x6722efbfc40;0xa5147a288fb5e;0x1fd321ab32d08;0x4d6b9656dbf60;0xacd1fba933cc5;0x72e8a8ec7545b;0xf62a6c6d9ef72;0xa262791874212;0xdc3a12da6cc88;0x25520188b284];[0x0;0xfe06b3f20dfb8;0x7a7013e4e2539;0x78e71e77c1c8;0xd49a907d08f6a;0x3c27f1ab3959f;0xb92935692101d;0x1913f7e48e740;0x4d94fb2500d5b;0xdcbc089c9ea68;0x36be457e6e4a2]]);
 ((V [0xa1638f460114;0x8c6452e40d588;0x562f39790fff;0x28477fa8aff65;0xf52b479244d0c;0x11e4e82873f29;0xb089e9c43f3f2;0x4865e4d0f9d6a;0x727bb66789e73;0x32bbb7a47c8] [0x7a4080e010146;0xa0132818454ac;0x702d44c3d878a;0x6a8b790dcaa63;0x7723cab39a3d8;0xc59a27f7d49b9;0xf73752a7908e8;0xb5dc9459f3612;0x1ae2dd91a5e34;0x78cade2362c]),[[0xaa4127b153808;0xfa1711e7d7c03;0xb52b65166ea7a;0xbe6c5a1e265c5;0x9179d246fd19d;0x4352f892f2f10;0x3c13c00e670;0x5f2198ecf555c;0xe015851c4d8f5;0x5651bf964bd];[0x4332185f61ad5;0xdcbaa949ff903;0xa5c19353f1e6d;0x49ae5e0440042;0x132f680e2f339;0xf0bf40c5db2b4;0x6686145bd04a6;0x6b321c5cbf527;0xdf78196d748bb;0x4d01c0674b];[0x0;0x65a717ce911dc;0x595c56e0b8102;0x5e85e25296252;0xd3886c8ea9bb0;0x2e8b52b729b26;0xe1edef3252b2e;0xc011a2f6a6323;0xbc2aad0656cd4;0x2bf11106e8389;0x6fc0eb1f9ec];[0x0;0xe9b1276695200;0xde867234e3819;0x36b3718e55cbf;0x766aec1a468e;0x9f3e243456b5b;0x2e812f26038d;0x973a99350af15;0x793e7ae2d9508;0xc0008ce10dc30;0x799a097b6e6];[0x1;0xb5b09db43dc40;0x931877fbc3ba8;0xde88f14edf91d;0x1ab6a91226061;0x65cdf0bba894e;0x9882130c96a1f;0x29166664ab5e8;0x68c3d400f9cff;0x7f5e1f9bcc8c5;0x21dd6a71e67f];[0x0;0x42ceef3396758;0x54d44fa3303db;0xb17ac2dac9240;0xb1b433622c893;0xd710343fa1c33;0x6c7d0cfcf20a7;0xa5b169607c153;0xf41f3f86df1a3;0x4c2f5e7dbc7ad;0xab5aef5955baf]]);
 ((V [0x8d89e6fe62228;0x88d6bcaf1b68b;0xec3bb19728bc1;0x66149c0a3d98d;0xf623e53b216cc;0x9a4a9f905fafb;0x4cd5323188c50;0xad3249a42e6ae;0x3bb90b84396ae;0xbc6a156b75] [0xe40709acbdc71;0x83c5559a4c521;0x141e6b30db7fd;0xa726634c4b8a0;0xf0769fb34ae19;0x316cc038491e;0x26d290288e0e7;0xc526473d4649b;0x282abc4367641;0x50c336220f3]),[[0xde4c75a8fbaa;0xa9aa689be9df9;0x68b92b1e53193;0xbd3386f07fc06;0x7686d3c460516;0x5118e447e3703;0xc2c9f9542d523;0xacdde1d33b3f3;0x581da09894531;0x362f8c63b93];[0xd904ea4ba8b48;0xbb35f265cc40;0x1c50d19b13625;0x3b44cdb3e9b81;0x46c6762db81d3;0xf7f1ef469a3ee;0x1ee20a53ec9fc;0xbc805ee9508cb;0x74917d5c8fd3e;0x5abb126dae4];[0x1;0x55702baf6e890;0xda0515926ac40;0x7c5f55b9b7139;0xfd9342ee156f8;0x2d888978deda;0x6c0a711c7c2e9;0x3b4fb580ef569;0x346d0ad1977c;0xff8cb22dc415c;0xa15a6a173f2];[0x1;0xf2ddf3dc01978;0x41324c63de9f5;0x8a2296e737e01;0x71a2b3491af63;0x6224eebb65ffa;0x93972929f3257;0x15be615e75cfe;0xbcf0f6a26729f;0xf57654db54b38;0x1ba1d85311b0];[0x1;0xda7fa3133d4a4;0x558582467f0f1;0xf9245eee62582;0xc32d0856011f1;0x653fd2b485b9e;0xd77df54a56658;0x91266a5b72e73;0x6a16a9c15d45f;0x87a5d1f70401e;0xcb8bf121894];[0x0;0x6d318b2d59a72;0xd30bf2e1e0f6a;0xf50c67814137e;0x3490554c78fd8;0x139b82e32a044;0x4431fc0d4c722;0x4a92d562a42a0;0xb765a55b40971;0x3c1d15eb407af;0x6b12aa096caa6]]);
 ((V [0x7aab1eb3a5533;0xa7a5344eb348e;0xb9b039ca30206;0x389165e48b073;0x5ab60b0098a5f;0x5bcdab52726d0;0xfe955d0838bad;0xa6c7f6a383f63;0x1b7ba9e89b29;0x732cfc253a1] [0xdf8f6164586ea;0x7eeae0eba06e5;0xf04cfd198bd7b;0x412e18a453614;0x22129cf0b8293;0x361352fd2917;0x1f52e32921066;0xe743699d3e2d3;0xbbccd1f00a465;0x36c9daedaa5]),[[0x296f6cd0e06a5;0xf2ce549f07a3b;0xab686676bf8e1;0x425597e2f6a9d;0x1ec2dec306cec;0x153d76d555d8f;0x6ae73c2e9f727;0x176df170ed557;0xfa7e3b7a40744;0x2a57dd68dbf];[0xeb345f48d9e7c;0x3c6258cb3cff6;0x254a72d9fcf1e;0x345f44792ecc8;0xdfd70c78759db;0x8336e6704f336;0xc57c64782d5c9;0xa675b69e1947d;0x536987fe88597;0x37498c63010];[0x1;0x5578cf8e5a240;0x2aaf0266af877;0x13a81376d400c;0x3fab3b829fbed;0x759d1411f79de;0x1ebc076b042c6;0xd80e7ac554424;0x5773560cea717;0x47df9d57d9f15;0x6d7dc0cf2ae];[0x1;0xd1517393ada0a;0xbecaf495e6be3;0x28435e7abaca8;0xb5d7f3eb4b0ea;0x227728510e853;0x774dfbc57863c;0xd8667795006c3;0x95908cdb020e6;0x54a708ecbc035;0x1164a4e07ac1];[0x1;0xd9b99cdce649;0xe92dde319c51d;0x33805594865e0;0x1c15c93e49bdd;0xc4304af54426c;0x5464815ae62a9;0x80fa66fc6360b;0x9adb61ab60423;0x7e1eec1805003;0x107729808078];[0x0;0x1c63f0b8e79cc;0xc9658623cf97d;0xd47306b9989a1;0xe275add2b90db;0x28acb722bb111;0xe53bc0df2e49c;0x8d2c9c3527ae7;0x14b8cc0be57cb;0x64a75c0325360;0x53a8c3fcc87f4]])]
 [[0xc3a2deb6fe4a3;0x5dea995dea080;0x25939ff9fa606;0x311f4b6c32182;0x15f8e304c1df8;0xd80da0b926d6f;0xfa223632b932;0x25ade86a19dce;0x1234cfa29c7b3;0x2e7f2d1a071];[0xc1e3f85b33717;0xa868abb934abe;0xc28232faf04;0xd60059acb219;0x6cf85cd97fd8d;0x898248a4e2675;0x724570b170bc8;0x2dddb5f26d9b4;0x54482fd2c969a;0x318f867e4ab];[0x0;0x9140e61abbce7;0x9c8b5d3f0842f;0x34d1e0b324c74;0x9f47a8b61af35;0x70e39c4932c88;0x3d5951a23f569;0x4545ad9e17541;0x3cd02b7664a9a;0x4f2e237d704f6;0x483d7e5993];[0x1;0x50bfd006f383c;0x40b8a529afd2;0x384632826777e;0x6bbce51f5a730;0x51bd607aa0c8c;0xc7bb5a09e1725;0xfbb24be4a25ea;0xdd93696ef918b;0x2d135b45b1f2d;0x1018f3270483];[0x1;0x8cd95f85410b9;0x31dc942d68839;0x15b4a85225df;0x9e7e5b5c860a5;0xa3df49f007c53;0x18df7173d1cc8;0x8f85fdf602f3c;0x3fc7a1bb31ef;0x8c64384ba05c4;0x24d0dcf8e44e];[0x0;0x7ff16c9c36114;0x5be06266163f4;0x381fcf707defc;0xf96832fd02d27;0x866667279776f;0x6f3e09725fec1;0x1f50680138cba;0x7a369e15e2a8c;0x3ea36d9680a22;0x5c4fc6aed18ab]].
Definition wit_512B_64_1 : colwit ipt wit := mk_colwit (V [0x3a6fcc9b4a26a;0xbbc98dffc3aba;0xad9d11d9200a5;0x7c5e3055795c2;0x5a4f106080ab0;0x3fcb08c5a430a;0xc433a864bbc48;0xa7442c4f941b;0xf37d04de19925;0x4f990a23bda] [0x59efd3be7233d;0x637a1856728f0;0x4668ad5be0dc2;0xb49d0edc0c905;0x8edd9f9fc36a6;0x9164e88af1e1d;0x8d848af64a9b6;0xd688b964a42d9;0xb223f1b94abcf;0x8e9af1cccf])
 [[0xa634ffc3b120e;0x64aeafa0c28e2;0x814acd010f5e0;0xd77114bfca8;0x858b04dbc05b9;0x84719b3417c60;0xc0f66e0b3a5b0;0xa797b3cc88bb2;0xf4fb6ba3bfd96;0x36d595df2d7];[0xf0615d61808d2;0x52683fc1e4aa;0x6e7190337111a;0x56cd7d054a504;0x8e99a7cbfeea3;0xc76e1385ed813;0xa27d0c609602e;0x3f087f007898;0xcc7527930afdf;0x2793b642d2e];[0x1;0x2eece6314f8c4;0x4e0ee7cfb59ee;0xdf91ef2a916f5;0x31124b95135ad;0xce410e5b295cd;0xd91e885f544b;0xe401255676ee0;0x880e2909c1476;0x6a9c6ae05d54c;0x25f3e810307];[0x1;0x10582ff0928ec;0x9801b5365fef6;0xf7b6f5c16e7ce;0x514d5121cb14f;0x49b46a4dd8629;0x6d97f4047d1;0xc5b44db9dcdf9;0x1e73da2bfbe26;0x9f5ef256937cc;0xb7135a3dc94];[0x1;0x464bd8aa21284;0x736dfbc85f3c7;0xa855ac539a380;0x7f6607a0fe28;0x83ac1b22b3a94;0xd084e53f9c36e;0x82503c6d05e7f;0x243da7c647b7f;0xa818e78c6617c;0x1aa3004ecf54];[0x0;0xd231b0d7e7ff6;0xd126fc2b559ef;0x6ed0d3ef7f23b;0x711e4ffba2100;0x8bb9dd6a356a1;0x802340025b647;0x6c89f7bdf9f10;0x996f6152c7ba2;0x7b98f40e885f5;0x6d4e3c73734c5]]
 [[[0x94e450175c394;0x9f69befc58d2a;0x87a2921ae8317;0x679ab3b93a87b;0xe0ba436ad4723;0xa248faadb96b1;0x4e1abcc2a38e1;0x6e2ce159d6137;0x9d377d8002a13;0x196620b8925];[0x1;0x4bb1897574edc;0x72a2dfed25bea;0x75a64982b9d72;0xc64481e8a44ca;0xa4002a5b32f39;0x2c6add0054425;0x1a17f17b6a77d;0x2d5573f10f6bd;0xdaf459b02ad76;0xcdabd50a05415;0x1];[0x1;0x18d4413944c90;0xad79bcd1a94ac;0x4c54d0339cc69;0x565717af9b3bc;0xeda10e03dcf3e;0xc93279d3b5c70;0xf8df2d656034e;0xaf5921c38ddc1;0x9071aff5e5479;0x1dd4442f54ef];[0x0;0xadaeb63528b50;0x738847bdbb830;0x7f3d20e588b19;0xb6d51303d7a18;0x7d46a693ec626;0xb951bc3f0bf44;0x64a4ea7edddbc;0x4d3e1461df7e4;0x9c3d4e8529813;0x324d5c283ee47]];
 [[0xef8a5c176b823;0xe627827edf628;0xb139e079d111;0xe680ce0b680e6;0x7ebb7b1df9247;0x729de0180bb06;0x30fb655c445c7;0x8e723bd6b3470;0xf5e9164361396;0x27bff43b5a9];[0x1;0xa7dfa3c873d78;0xc854743d95f66;0x3c2a41ac801a4;0x2094a1c38f526;0xaabd6d7fa034a;0x79cd3a3d0dbdd;0x1ed243fbfb0db;0x9dfa5f281c77e;0x33b07da15434;0xb156f6e26b412;0x1];[0x1;0x9084ed663d5b9;0x81243decc224c;0x6828c8b480497;0x98ee4ead2441;0xa12e04e75fb7e;0x8da6d7e3b7f55;0x518a80d17c1ab;0xcf7c4a089fa6d;0x52e27e2d36769;0x16c26aa5a9c3];[0x0;0x8cac95372d94e;0x51428447be459;0xf1f9c9271d270;0xbc120638b96ff;0xadd8d62bcad07;0x5eb81ad7eb5c6;0x400f80d9161aa;0xca5ec3c50da45;0x855d90005b055;0x4f020410fed0f]];
 [[0x447d090ec345a;0x9b64ba5d0d944;0x653e83ed4f531;0x9cf6812d2693d;0xa7adddc7c272c;0xeea0deabb9508;0x2e9656f91d2af;0x69e4f3dbb2343;0x98f0ae0566455;0x4fa8dec135f];[0x1;0x135f59d6f98c6;0x94c5096d5e8c8;0x2312eae86345a;0x24c2b43cfb51d;0x72fe26770e107;0xbeec4f91aef24;0x80c291f8f9a70;0xa51f475b85bf9;0x755b64d62147;0x60a61f8b70f42;0x1];[0x1;0x5f7c1887fab64;0x6a7311b5d31c5;0xd5d7fdf33ee71;0xbf6f6d5f3b001;0xa4d1a30d65f11;0xea1a7baeadd78;0x583eb9286f9f2;0x28b14ebddffa0;0xede6c475521de;0xc614b2477c4];[0x0;0xebbf1b58f7614;0xaa486f42b183d;0x24a2b6e191cc1;0x2a69aea50e060;0x7c51c6a9b3a55;0xdd00e77c66620;0x3c7c27ca4154a;0x1c24b37d1bdb1;0x68e78d8c84b54;0x9eb7a372d5fb9]];
 [[0x86edaf12998fc;0x2be65f6a17bb6;0xa2ad61644df98;0x50edcf3f3bd63;0x9f890a7f5b4d4;0x63a8216afd21d;0xc36b04d72f518;0x63077754eafe1;0x8233836794b9c;0x7eaff21a34b];[0x1;0x32440abee7888;0x17828f3ea69db;0xf2886be7ae27a;0xa9e9fb4942fa9;0x890aaf857b26d;0xa1cd165c7d4dd;0x277627748ae25;0x1348bee49df5a;0x94e231519e10a;0x2bafd8cac204;0x1];[0x1;0xb771099ecf10;0x98244fc48c819;0xf9ea29a5292fa;0xa1a57215546d2;0x9774b094430cc;0x42e475207424b;0x61c50c5c3b0a2;0x64e40a5910cd9;0x47ad6ef3a6fe1;0x76919ae1b73];[0x0;0xfc106fa951450;0xd2f5ae144118;0x9eb737152faf;0xc2078e8ed0df3;0x6d8dfb4e558c3;0x8e25509a3d154;0xf4531ef1f35c3;0x86c2d46d4a783;0xc49c3746edfa6;0xfd44d165ea1bd]];
 [[0x484ddfe428d;0x14c6418b6e246;0x17c1cd650b184;0xbe968eda86ab2;0xae2f275569690;0xe8f21c0535bc4;0x83557583a06f6;0x265b1f7a4e754;0x7837933da8d51;0x2b26a7c584c];[0x1;0x67b12031ea257;0x944b63bd1e8ce;0xdc8261b342525;0x2f10ddd8753e1;0x89c386ce48c2e;0x807d2988a7744;0x73206e922727c;0xf1bc69a017cc4;0xbbde7e0c48c90;0xaa25f2f7a96e9;0x1];[0x1;0x5acede9eb0499;0x4f43ec4cb7650;0x9d0abca5fe71b;0x4fff88949f695;0x7ec4315a19135;0x9bbc4b4188df7;0x655d5263ee071;0xb4ad306d55969;0xfc98ed0def5a1;0xbc2df239cdd];[0x0;0x5db21eb248634;0x455d3be0c5a45;0xba52127d382c3;0x9bd747c440365;0xc71cc4afd4384;0x5b2008267c270;0xad015e4385b51;0x8e9e0248fc0c0;0xf492296bd932e;0x557134bdecfeb]];
 [[0x7317be1e3d50a;0x6da9410e3d953;0x791cd10853101;0x1807686ae70fe;0xc1f295d5b92c7;0x1e0f0ddb21f8;0xb8b27265a38a1;0x8c5a4ae2bcfda;0xdac3a107a8d2f;0x61d1107a5e7];[0x1;0x461a9e8d57a60;0x46a30dd25fa74;0xec1e76adedbad;0x5f6cc6618ee3c;0xfd97efd7da59;0x93cd2b629062b;0xd2d0a87ffa04d;0xd55545a900a46;0x6e95a8bd7ed84;0x3c26ac42ac3a3;0x1];[0x1;0x3cb5c95b87424;0x6d013ca716e3c;0x796d343d82fa0;0x3f4e6dd758568;0xf15d7bb2e5b0c;0x87983c8b01491;0x7893c13dcadfb;0x379273e1ac9f6;0x6a777598af088;0xb5eabebbe31];[0x0;0x70d9cacc8d7a;0xfc4d9062f367;0x8b03266f4c6be;0x57d35f6f3e4b8;0xaaa3a590b94c3;0xfab8ecaed3c1b;0xbaf5686ea1a15;0x413e11489df94;0x8a577ec91de5e;0xc29c35e240315]];
 [[0x344f39163e9d3;0x30c14b0e26125;0xd95cd18536f7a;0x7b9f7f0888246;0x5d62f2438a739;0xac6cfbc9dafd;0xecbd8ce5934d5;0xfd7605c9a3aa3;0xd79f4fc2e0be5;0x2be131fa4fa];[0x1;0x854bf9e74948;0x6825c366ebcfb;0x627b735d7a67b;0xec7ba6017ea3;0xc8ebc80f8c075;0xbb293da1118db;0x3238325e60e3d;0x6d72c158ac80f;0xf5688db359c36;0xa87c8be3d3706;0x1];[0x1;0xee5deaff502d9;0x82f183dd1f9fc;0x60dd880c76148;0x18ba42cbeb2d7;0x831cbc3f7231f;0x702704442d0f4;0x47edda0a02df6;0x2acd230ebfae7;0xe096ac0a84476;0xfdd69e925e7];[0x0;0x6b6ad555c7946;0xba0d2dd94009c;0x2e72aaa0cec1d;0x856bdf60583e2;0x93f413204757;0x95258be8e92a6;0xa0b0937eecd7c;0xe245fa1e61c46;0x7d5516ec3fe1;0x56955654cd9e2]];
 [[0x9d5258b35fce7;0xdb36b1e55b75a;0x64b48c6986865;0x42928ea3786df;0xf36d900e7b26;0x68d10172c64a8;0xb1245085463c9;0x524efae8c364;0x4b508cc4cdfef;0x5cb542c16c7];[0x1;0xb9b92475c5b21;0x63508c78d4f87;0x863d9edcec71f;0x5004a0ae1828d;0x5e0cdda7b200a;0x91eed98ea43f4;0x947dfa0f023c7;0xb186afd535521;0x37c5bc00a9d51;0x464e6984be3c7;0x1];[0x1;0x772e968d55ae1;0xe01fec45d6dc6;0x27e2a05a8ae53;0xf130bd0f1a949;0xf8d5df3628e6c;0x76f6339a3c997;0x668d5ab85b9d3;0x3451aaec8991b;0x6e26e8764796a;0x117c26aa84b4];[0x0;0x3c858c10a483e;0x4583b91f1732d;0xf4bd858d346aa;0x488aada7c5a6e;0x979fb7bbf14a8;0xb05146fcc190f;0xfdfe56449d999;0x5893686a6c256;0x307ec233e7a9a;0xb80cb8db1c226]];
 [[0xd78a4f6fbd8c5;0xdb036b8ec48e;0x84bdd8b175dd0;0xf4a4913184f48;0x6aa232eb2731f;0x858addbccf540;0xb9c563557ff6e;0x66f7a654950b9;0x7e6ad1812d789;0x2d02fd7a203];[0x1;0x2f02641602fbe;0x2386d31d0d504;0x573a743920e99;0x49cad2b33763f;0x6394c4d1f731a;0xad1074893f26a;0xf6e617fc14bbf;0xc16a7467fb329;0x60c711d564d90;0xa625156af6a51;0x1];[0x1;0x8ec9b0ceb9389;0x71cf46d6ba17d;0x7c17030886505;0x65287ef379c4c;0xa5c2ca7620a55;0xaf894e23aa988;0x5ec837f586c03;0xff100ecbcda21;0x750b05778d0bf;0x170de07d3ff2];[0x0;0xefc6383566ef3;0x19c72ec88206b;0x998c401df7048;0xc10b544e2b0b5;0xa506a90bc7fb4;0xd7ccdc72df2f1;0x20e47660383e3;0xe7d9ccd1c976c;0x8787354e4b8b8;0x593b546c07922]];
 [[0xb64d809e1a9c1;0x102d4e2d1b99a;0x5eb51de66d1c8;0xef069f6405a27;0xcc4ac638f4a80;0x9c4bb147a2f20;0xf099f6e0371c1;0xa21e0ea6c7301;0xb784473b9221c;0x6a605c380b5];[0x1;0x31789c8d5ba50;0x1a9ecc32e777a;0x222486aeef5ae;0xf3aba745a8882;0x44e9d4987aa3d;0xdc2127671ec0f;0x881b9afa13a50;0xd8ca9fcfaa94d;0xf0e3ae3bc3d4;0x2b6cdb6c5ae30;0x1];[0x1;0xb57e7ae580cf1;0x2a51203287c79;0x7a4c7fbd151c0;0x3641fe38629c6;0x18dfe169ab6ce;0xfa1ae9be087e8;0x6fce2213379c2;0x3253f28e81c8c;0x7cc7e0d1586ac;0x11c1574f00f1];[0x0;0xbaa73bbae2cef;0xb96d484090b80;0x737eca4765dd;0xcc4660c5d05da;0x186b07158beb;0xc6d0ac75d4665;0x9e306586e40e1;0xb66d9b39be591;0xd327ccb0db093;0xd4a2847d6f047]];
 [[0x88a9817fb5041;0x3ffd83f10bbda;0xa9ab10f48afdb;0xedfca08f30d23;0x86c6976fdae74;0x94191d6cc97f3;0x5d82d71628a1e;0x45d6c192b6086;0x419cc95839aaa;0x69e628c1e97];[0x1;0xd47b4cf4c9622;0x5163f9d94b13e;0x42f9ee57fb778;0x11bb48b1dcd95;0x460a439e49284;0x94b90d2215e27;0x19d4bbd35b848;0x429bfa454073a;0x2d732994bd0c6;0x2cc9d41ece064;0x1];[0x1;0xdf10190f309f1;0xfe7fb7d61b539;0x6eb42602a2c1e;0x5e51dada1fc9e;0xe893db37bfb97;0xefb15111a61be;0x4d87ec5531d8f;0x745e8fc8caae;0x6ca3a823eee44;0x17f9566f8028];[0x0;0x1f99278a66a8c;0xc56c669fa1481;0x34312d3259180;0x2dca8aa07f241;0x39573fce45fde;0x4a835441a88c0;0x4622633fa457f;0x68910defd527f;0xd4c7f3aa83fca;0xd40ba9bdf0954]];
 [[0x4491113f3d1f;0x47d2b26464150;0x29a29db2cb7c2;0x2326d7b581004;0x158ffe757e057;0xc18a5fe921372;0x8a1d2a198dd06;0x7d1cfb596bbd9;0x36eeada9d5dd0;0x662f3b1f985];[0x1;0x3bb2ba293b5c9;0x9616514c4de77;0x8e2979d67d115;0x71428942161f;0xa4fc1574a043;0xed1bc5b048669;0xad64e0bc76bff;0xcbc3f93c2d8a8;0x66076f9306742;0x343238f1b0f60;0x1];[0x1;0x28c4c706a6f31;0xfc9b6da45d246;0xfb2cdc0a75f8f;0xa11adc7c4c0a0;0x610c172351ff4;0xcd78ea0eda337;0x7046509df5383;0x9f289b8fad242;0xd60a358c685d3;0x14d7f5d701bc];[0x0;0x2aa0ed19425cf;0xf018b8cd54e5e;0x6c693fb47d2e9;0x15f3dd02b2231;0x1a29f2c9d424;0x1372d7aa945e1;0x65f77ea51b2b5;0xec6229a23d8f0;0x2984bcaa4820;0xcc8f7d1b1c65f]];
 [[0x92a33d75ddb07;0x6624e305ac177;0x7767a385c5ebf;0x14efec190cbff;0xaccface21257b;0x8586a9ac3eb25;0xfee3a8f24c5c;0xe2c6d1e350d7f;0x4f15cfb936131;0x615e3b61d6];[0x1;0x70b785c7a8a71;0x36692a6d8561e;0xfb93d69e22959;0xe28a599b74380;0x59113c1b332a4;0x3187985e5d8d0;0xfb575148ae296;0xfe4aecac9a7ee;0x24fdae79cb0c4;0xf4ac74e7f78e3;0x1];[0x1;0x55487d9a740a1;0x2371b2294a9b6;0xb82196911db5c;0x45a7f56fd8205;0x56a37584c40e3;0x3f7d2b80c0d41;0x584d61e41bf8;0xab20c652bd417;0x4d0c2b2562fff;0x1d193f6eab23];[0x0;0x4a54af334f57c;0x919379bfe3cb3;0x16187430a21d5;0x9903faada8180;0xc83223bd29fa0;0xffa8694bd82d1;0x5bd4cea77208e;0xca8451a3002f3;0x667333a3bf7da;0xb7ba43f1522d]];
 [[0x88cfcdf3afd71;0x21057f5db430c;0x32631a8794fea;0x453da701c83ce;0x56626128a92a0;0x8fdebef352735;0x1d6d5d07372f9;0xaea0baa26e158;0xa90dde270abac;0x23ba136f55a];[0x1;0xca57d9afc3ae4;0x30b9d9f17a29f;0x5b50100b09f77;0x4a17e57ba0c33;0x73ccc9d0db79d;0x6114dd95d6718;0x3532245dc5f2c;0x268a99101ff8b;0xd668ad7c35be2;0xb8ff161729992;0x1];[0x1;0xd906b00b83f51;0xe13e17cb022b7;0xe21661f7881f7;0x6ca4c9346b0dc;0x28ad9419be8e1;0x36920f62330ce;0x380d1a7a4a6c8;0xd036508d529f8;0xe57c79f74b2e1;0x1e86ec18fabc];[0x0;0xcddba84b0593c;0x5a35831610cdc;0xf6232b02b62f8;0x42001b672ce6b;0xf931a436c6335;0x27fc89d8109b5;0x7dbc00242f129;0x9e74cb559fc47;0x14d124ba5c68c;0x46e3cc5c9f8ae]];
 [[0xe4c3d821b61ff;0x1335289cc655;0x7e70fa78ca5e8;0x3c0f30f153c7c;0xcac84f89c81de;0xc0364ca1547b6;0xcefc2c1fae3dd;0x2f628da9dfe77;0x8bed74db8d633;0xf66814196c];[0x1;0xf82e04361e7d7;0xfc4970cff9718;0x19daf8d4d721c;0x7198f24ce85de;0xa5daa7782d860;0x6e477f192c35;0xb410d333abf70;0x2ddb61d54a698;0x176f8065ed686;0xe1f6bebab0344;0x1];[0x1;0x7edb63eba1d71;0x73e0802c2e6d1;0x703a2d44a1c1b;0x847d8158bf319;0x3e00d607f0c44;0x11fd29a942262;0x28e5b66dd99cf;0x7d4a49a35d309;0xc2d3d70cb4939;0x209064859d83];[0x0;0xd93a49f1a8a30;0x3eaa24aee85b5;0xceb9d937a0ca9;0x26be21a6a3706;0xc0aeb9c902e7c;0x5d4127c6b2352;0x255da08a8af14;0x1baa06957ed6c;0xa98f8d7f6d2d7;0x1e414ce44625d]]]
 (V [0x694dea24873dd;0xf754c2320960d;0xa1a54efb09de4;0xd8e684f030277;0xa0b82296b0fc1;0x79bc7ec0d25cd;0x260eb526a20f7;0x151135fc6e714;0xc8deefb08beb;0x6730f5d27bf] [0x721dd91afa01d;0xec6fff1e914c2;0xa0d206078fe78;0xa28d3a08dd2c7;0x7ba588a414b49;0x1bfc702bfd317;0x850132f1e6cd8;0xcfeaf779a31cf;0xc98fd07ba1d1d;0x68d92af594f]) [[0x9327fb8aec5b4;0xaee3b447c89c1;0xb80ec8ee27cee;0x39200cfaca7ec;0x32cbcda15854f;0xa4f3522c787e6;0x1776124f31eea;0x1964145171cfd;0x5537ff35997ab;0x2bf0d9faaf3];[0x1;0xd7555fc9b9958;0x7a615f51d7bf8;0x35cdeb1df00b;0x2407310602e14;0xf2cfe8adab8a6;0x86513e76dff2c;0x2fef9f727214d;0x6c64e168ad634;0x120302cdc0355;0xa928175464695;0x1];[0x1;0x69334cab9f590;0x75602539ba59e;0x9a9ad2c224b84;0x553084695f94c;0x21f4d2fd87f13;0x176e03c0e6812;0x146524035bc47;0xf8ad19ecd61df;0xc33fb7c430df1;0x238515798004];[0x0;0xc2ca22989a4cc;0xac81cae484796;0x148cf9a6956a4;0x4cbc7734cf7f;0x5fcb42f8f2ce7;0x22b92757a759d;0x9bd3a8e2789c6;0x75d109c756825;0x79763bcfafb9e;0x56e83baf4ef87]]
 [((V [0x5a5d869acf97;0x54cff49e127d3;0xb7d1eb7183592;0x660b27574faeb;0x7421abd22e10d;0xd88b5d5743a21;0xd3ca9b4b94065;0x9e5f6e2e71270;0xc32b9d1a76f9e;0x922b81afe4] [0x48547012b1ea4;0x61129bb5ba6c7;0xcccb15bc5a5ed;0x307932bb10ac3;0x125fe7b09f39f;0x92c61c58f9062;0x1c604cfebf820;0xf3d26217f96da;0xe88c42ea832ae;0x6da4359cdad]),[[0x5733d84c5ff63;0xd603ad220d51b;0x4f9a9a92e76d1;0x1d4ab7920bbe;0xd66675c7a391b;0xe97405fa5db67;0xf6520126a2e9c;0x853a2237bf5b;0xab77ee9ea4317;0x141b9224316];[0xf6f0eb0168306;0xa665e26533715;0xed7e1a658b96f;0x12a38f1c36228;0x23a35255c4410;0x6fa4d91e8b195;0xbda5cbb0fe00f;0xcc79d540adcaf;0xb30a5c5032b0d;0x25cfb78ef41];[0x0;0x502e7a63db247;0xdd1aa59b3b8f3;0x63a2784d81e1f;0xab2d3201b4c02;0xfe7af335ce835;0x5f733b9582782;0xabab5103b3447;0xf4133191c724e;0x73326cdf89f8c;0x7916f3b0d3];[0x1;0xb28d6db5b3a8e;0x8040f7e6ae826;0xf0655d196a755;0xdc7ac5a102b9;0x1a3e7d50fd00c;0x1cdca6c488462;0x1d4a18bdc01ac;0x59786fc9799cf;0xbda4ee768f56d;0xc1ed44e4255];[0x1;0x282740b326939;0xeae07fade05bc;0x1c9afb60adbc;0xb1a40f4463568;0x8d1d6b66fada8;0xcfa6736dc5aa8;0x8f5c98649398b;0xf7879c5adc699;0xabb9afdb860a5;0x1abe0a3e44ec];[0x0;0xd0488ce49ba71;0xeab05951be293;0xcc91a2dd1f6de;0xc669cd9812f96;0x76a65e35e4941;0xe3065202044f1;0x29a9edab466;0xa9ad329a561c1;0x2f29d3ee584d;0x26ad0b956aae3]]);
 ((V [0xc5e44a5a0dca;0xf8e3f17b9866c;0x5ffb80552fcac;0xbf31701e1b7f9;0xaca1447393202;0xba5a05bfefa42;0x5806134a7bdef;0x724f0a44acda;0x37b109fef87f2;0x2209b64fe65] [0xdba561a405057;0x12d6324894c83;0x90d26a044bfdf;0xab29c75c25707;0x457c8d1a4079d;0xf93a70712567c;0x13fee5337acce;0x6b6c1b9f6773c;0xb7f76bf9f8859;0x143ee359c7d]),[[0x662d0d981fc1f;0x50c842a79fc3c;0xb2910f3d9524f;0x6332ac0975c13;0x4febf0795459c;0x448f39fb9294e;0xeb18a59384f1d;0xb8eb74fc1f129;0x29959fbf01d83;0x7fc123ccfc9];[0x37c9259e01ef1;0x633bd2894a570;0x92cc185a472b6;0xda50459bea9d;0x2ecafed2e7d96;0xbfdcc1e0acedf;0x2281d9e8422fd;0x7d0754d60052a;0xfc7484a764e2b;0x4c232746e1a];[0x1;0xd31bdec6a1381;0xa4ac5262db809;0x968e54782f37a;0x2883b1d59c040;0xab64ba882c821;0xd31ef50c0fb5c;0xd274aa6c80b7e;0x9c40859fd065;0x81e2726b842c5;0x979f633f207];[0x1;0x3311f5e5c2438;0x3ed9421ae358c;0x5090e5bfaa48c;0x36aa22d0481f4;0x646d64253f26e;0x836588d392233;0x740d5666d0d1e;0x1b704cac6de53;0xaa92206b3b63b;0xedf630bf615];[0x0;0x30df64fd56ecf;0x3007cf772d295;0x71436817cd29f;0x9369267e55933;0x4ce7c64fac95b;0x761452cccca29;0x8efa16daf33a5;0x16e8f2b33b344;0x833c3ae57549f;0x16e4196cff8];[0x0;0xd9b9bfed896fc;0x2b96143d366c0;0xbacb673452970;0x4605762490abc;0x96e75d59697c1;0x9d5ca62f576d8;0xb978450558dbe;0x1d3e4b6b32de5;0x9428f48076d1b;0xfee567c85e078]]);
 ((V [0x2a1a08b449e4e;0xb0aaaf789be99;0xf4486a7a82492;0x64660becc02cd;0x565de65bacd89;0x3f2a35c5cb385;0x875f84fdb1e42;0xda6998f1043d6;0x550ea6d653fbc;0xb39f72bda6] [0xcb0a7fc442564;0x6f478546f71c;0x9869f7c05559;0x95b3ee3ed961;0xf40a1a98e2c0f;0xad51f2b769ea3;0x1e0acc3fc1b1c;0x7a3f5df54baa7;0xe7209b7f9b138;0x24b9b2bad0d]),[[0xa34b5dde54744;0x6c45aef431c48;0x4aa514de79a9e;0xbfd28375d81f0;0x893f1d5909299;0xc6ddcd0aeea0a;0x41fe8edb2d287;0x8d87cdb9f9dec;0x77ff8bb33a5d1;0x4884b20c636];[0x8f739b35104f9;0x3d24a845a80b;0x6ca7cf85139db;0x7c6c20bd47110;0x2ad9125f589e4;0x1b6029df77c80;0x43cc88855f8af;0x461ffec209696;0xe651077c0fc86;0x51092a49b66];[0x1;0xd07c0a98f8324;0x786dd3c685dde;0xa2b99d2c5336b;0xfd07c93ee3909;0x69250f20740ff;0xc6a4f7d61e4fc;0x72e2350edb979;0x758118ade182c;0x8a42578bcd318;0x99052afc539];[0x1;0x36875642d40b8;0xbd7549f754866;0xce697ea2222b9;0xbfdb1be13a4ee;0x94d4ef8c7621f;0xecf6f99b13340;0x7b42748a64d65;0x6f89c47d80b00;0x4e0361ea8a3b9;0x1cf4643ed890];[0x1;0x530488a6b4110;0x4d7cc931560a1;0xabb42703a6947;0xd4ed6066a1e3c;0xd768e48e267e9;0xcbfb45509dcdf;0x602aeb6d84c45;0x1d49b98d723a6;0xca2fcca663540;0x7584f5b92d0];[0x0;0xa4c041c37554;0x4221a493a3262;0x98eb141cd9560;0x5c071af59c046;0x1bbe4f434e0f9;0x505b6bd4e9b89;0x3b8347238ab5e;0x12e2068aec8c9;0x4ff879bd06c5d;0x90ece420267fd]]);
 ((V [0x2e68ffc3925db;0xcbe7b590ee89f;0x3bbb89a3f7d14;0x58c6b5f9f0e;0xf87239f36c6c0;0x94dcdd96e07c6;0xff035dd1ca627;0xa87b459a615ac;0x4a2e9dbe5f55e;0x139fd59c76f] [0xc369b6af88b29;0x46a3d640fed70;0xacfa79e048876;0xd1ef58234c37b;0x56a6b7fb5107a;0x2843c04b6b3da;0xd70818c684856;0x91fc953598161;0x14401cb265ca7;0x68058a17d18]),[[0x5ae518db44aab;0xfc14acee5f4d3;0x35325982f19ea;0xc8f79cb3d33fc;0xa3bee21a8fb52;0x5fc6d1638131a;0xcd6203a5fac6f;0xcac86de480856;0xa6ad25298be19;0x60759c85290];[0x6a6f4cf59304b;0x40ff3895b6e5d;0x87c1066bae4b9;0xf1160227953b1;0xc8f999df3a6be;0xe6ed50ca522d8;0xf86285b336d1d;0xe335d7ffc0d7e;0x7a8ae66a2fa3a;0x5deffa72e25];[0x1;0xd43db8e908984;0xf10b8acb2a1d6;0xb20be7daf489f;0x1cb3cae5d3a62;0x5bfb27c5d541d;0x10e5f49d3d896;0x59eabc347912;0xe0ef1adccfbc6;0xc17533cb297cf;0xbae3e42a3ac];[0x1;0x4c51cb13fee18;0xaa65a134ff5f2;0x4251e11dc9457;0x175665487a8f2;0x2dc9490e6ffc7;0x11a885ed6d808;0xa7376fd16d1e0;0xecd0f7c46379c;0xeb8373a1dbc95;0x1fc45d54d4a1];[0x1;0x420be6b596029;0x8669ba7dc620a;0x72996866c12d7;0xd167bdebe55ea;0xfef6d28c0e9f4;0x67937d5cf456;0x6614d8376c666;0xc79333ccc97fd;0xac3a5edcd799e;0xb76b10fb71];[0x0;0xb8d2f28c9416a;0x5624dcf4ef6d1;0x48597dde58c47;0xab993d361a1ff;0x6a199a3c29432;0x8fd527f76182c;0xbe90b8ac5cd38;0x3dd29c4c040ad;0x25ad702eb2c2b;0xc02bdc0efb4d2]]);
 ((V [0x610ff2b4fbd99;0xffd931be30b67;0x9d1212caa90a4;0x668df26d73c32;0x461f20e25365b;0x303385e71e74e;0x3ff50bce835f2;0x6fbe1299ef4f;0x4fe6c58824948;0x2fdf3b85d1b] [0xe6d40947e9f16;0xeaa806c729938;0x662fd71c1bfbb;0x2d7adbc2b3190;0xd702bb23c6ab7;0x5ea165daad821;0x27a8302de015c;0xc8cb882edd4c3;0xdcacc9ded91f0;0x3586bb2e721]),[[0x79fa0b1c0e92c;0x2c06de5145ca7;0x238984a126afd;0x7a3fc4cc24155;0xa9501a546c94d;0x230335d4598ed;0xe684348e0a5bd;0xb64cdbd953887;0x88901180b03fd;0x3b687709324];[0x558b68779ef44;0xf8b0784921028;0xa18d57f3ecdf0;0x504e86a4ef31;0x7c7445bca5987;0x336574097744d;0x4f36a2125416a;0xf8397e454ca54;0xf580478baac17;0x4d45d4e312a];[0x1;0xd74c6758a1949;0x5bddbe989cea4;0xedeb4cde9cbf5;0x80b1e8351e814;0xfa3d1807dd3f1;0xaefec48272012;0xc1a43787399a6;0xd1beb92ac9253;0xb0cbe36227a3b;0x97896ec59cd];[0x1;0x5c7056f8c1a98;0x34b772f9e26fd;0xf736038628665;0x73fe5344b285;0xba1c1bb90800;0x183642a920a09;0xda2d74ac75e2c;0xb122afdec8485;0xe85a9404fd833;0x16f14178ad4f];[0x1;0x9bcb69187e90;0x1cb474eab23f6;0xe84209211345e;0xf71cac81b4b98;0xbeb8a73278;0x71b46597e521;0x4aa1594d41dfe;0xe3ed7389f0802;0xcda2c77f90d76;0x92ab2a7f273];[0x0;0x373fe41ce1554;0xed06bcde43020;0xe0754ed728ca4;0x1fff6522abd29;0xae387361e5075;0x7d86c6c8d5a3e;0xb44473b828308;0xbbc1fe073d4b0;0x124a01245052a;0x75c421b81fe66]]);
 ((V [0x63d7a406a70c3;0x67ef47d23cb78;0x8fce6bcfa7ff2;0x7eead5bbf6aee;0x533b7d1afd2;0xc70d729b7f36f;0xcce8a4ed0d2b7;0x50c558ad88b85;0x1abc85f5f5fc0;0x602dfcdd26c] [0x3f2fdfb4aa800;0x8e56cbbd668ae;0xe5d5bc7654b0f;0x70e3f771dca9f;0x7b8289c245320;0xf12e1588614c1;0x1dc4e9b605139;0xd554d84d5d4c0;0x1ce872e5f2641;0x4013f0cda66]),[[0xd9dd56966b132;0x5469ec822a165;0x89671ec52db6a;0x2fd6c6179a434;0x51f8a0ff9cbb9;0x54484e2f3d257;0x39df8b7c173e;0xf48c0c5050a93;0xaef4cb7e45000;0x2b3c0ab7c78];[0xc0ec84210bfcb;0x9e154fd7ae140;0xe3ea7d1ca0b0b;0xa253cfaf06468;0xec170fafafe1;0xf58f9f1a88536;0x846f915ba0470;0x146634a2401a0;0x97793b31d03d9;0x7344364d1cf];[0x1;0xcb238e219b7e1;0x9e5093f139237;0xe1974b3ba43e2;0x1850819fa62fe;0xd7f45f7346c5f;0x50873df865bd2;0x87b729c01b812;0x86eba96eae28a;0xd686f55774a62;0xd4a0f79271f];[0x1;0x9f70596196b18;0xf5571f737fda2;0x42703e1816854;0xbd2f9bd2c2f8b;0xcca4bb7d4b804;0x69b95eae16bdd;0xb68a7fb77c8c;0xc6893868c6d0;0x31f85017f252;0x28f7088c53c4];[0x1;0x7c05cd2927784;0xad1ae5de4ce25;0x1243bc79abbc1;0x25f1f6c5633b0;0x19691b95a5d21;0x2a396d0321027;0x9b38edfa4c256;0x525ad7bb6ce1b;0x5272ebf9345db;0x1713e74740d1];[0x0;0xbd3179bd06826;0x525b4915e0f3a;0xa7ea5e944b45a;0x574fd3839ab54;0x7629416d51ca4;0x2c1e70950ac41;0x14864b28e7bfe;0xcffb0ff78ef70;0x61897eb42537d;0x55a7cb046531e]]);
 ((V [0x76d73a57ed629;0x4ba143f40086d;0x7fb7a3b4838f7;0x842d3aa8e3a07;0xaecb2c318e2d3;0x4fc056efe399;0x1f72e45cb276d;0xf04d3a76a529f;0x44b6a9f78b0c7;0x7b1b46b7657] [0x43f32fd628ca0;0x82cfbafc2222a;0x7fa2bfd0ecc3a;0x7e1dc3cabf364;0x5aeb69f72cb6e;0xe4af81816f207;0xf5ffbbb36507f;0x7f04f59c4a89c;0x3a3d05b48a1d8;0x23879b71b8b]),[[0xc6bcc5c54dedd;0x46ea1c7895a83;0xd7a3b418fd63b;0xfe39c57264f6d;0x4b5360bf8f588;0x6097e21f34baa;0x11b3970a5a35e;0xdee2181a51d05;0x177ce73255faa;0x48474547f6d];[0x4c6171197e367;0xbe7566cbd9eb;0x1e5348402ebae;0x5aeb1c57c4b70;0x8b70226d4af4b;0xbd6e83296bcae;0x74e59b79e887b;0x9c3ff94770bab;0x51017760c9943;0x1ced5d0f4d2];[0x0;0xe80b06c91a687;0x82f1678c6814c;0xbbda4fbc1a331;0x953ffbaf37c8e;0x9feb3d8d94dc2;0xfd951759545e7;0x9906e6ded74e2;0x59a7944bd11e6;0xfe85ce0bf36a1;0xe6a51b2ded];[0x1;0x2f3a388fd1000;0xf678c3d954230;0x5d27565fd5503;0xca089f32672a9;0xe8448081f76cc;0x1c216c5687f8c;0xfcfe8aac568fa;0x43b8a95a6664f;0x8984ecac3e7a;0x653263f7c2b];[0x1;0x5938237af2bb9;0x578af80e65c6e;0x426f622ca7c5d;0xcec89cc1ac7e6;0xc145db51326f3;0x82255b9a51d40;0xd3244a7045270;0x85dd06fe56b15;0xe103e10631f03;0x24e1e2b436ee];[0x0;0x5921579ad1a0b;0x23a0b8cc315e2;0x7a1110c05d69d;0x83345b536f352;0xc82279697db41;0xd4fffc4fc271e;0x600fde3c6ebec;0x9c6bdcf82d7a5;0x837b4b9c6ddfa;0x90006644fa13e]]);
 ((V [0x68f983b8e5b0b;0x2ed74896fe07e;0xc2ec669d54534;0x8bae77fda8334;0xfb5cc482cfc01;0x645faffd94c35;0xa41e5da0fabf5;0xfbb63647df4c7;0x7b58f88ee3fb0;0x50682491036] [0x8f962d1e879a7;0xf5f11479f3e9c;0xc202dddc04ee7;0xd618ee352a062;0xa9f15a25acb76;0xc8d9e413a9c88;0x20c012fe2830;0xd2944a25fba3;0x2ece38cdcb7f5;0x59e6770739d]),[[0xebad3e41737a5;0xb5e488cc6e2e0;0x414295378909f;0x79441fc6d520f;0x194882bef98e7;0xd2c5c0c086a80;0x3cdd5455f9e7e;0x3b017229d8919;0x955998a7b22a1;0x1e509010a26];[0x1b0d03564ae2d;0x44a7cd09803b3;0x701852c4f920d;0xad88a4e8241f4;0xe2ab69a3fdc2a;0x81a750bca944a;0xe2a1d4b0ea340;0xcbc0431f40ccb;0x278761c6e2cff;0x77ff25f1256];[0x1;0xb679fb9f7e301;0xed3f50b71d052;0xd66829044cb3a;0x562ac3ab42590;0x30186da9afbdf;0x338cc09f9431c;0x3ba1ca354e152;0xa183c157f5ff7;0x9052fe1f6eb5b;0x7997da29d75];[0x1;0x455e30d470240;0x25b28f07c709;0xbfb6dd43a2dc4;0xbdb1773c2905b;0x56449bbc02726;0x8418d6864d38e;0x5d631d323ae39;0xf0d359d7e31a4;0x345f3a43e004a;0x2bf26994ce9c];[0x1;0x11764fb7f7049;0x8d5be100c3aae;0x20d88de8fb6e4;0xd847c0748cded;0x15edb8db14fd1;0xfbf15621a067;0xb192430d916dc;0xdf0df43fe423b;0xec5682de69b07;0x2860f6dc3198];[0x0;0xeaef4168239af;0x206e9a875980b;0x8dc7bc2d0477a;0xfea7d203efbc2;0xe3ffa236471c4;0x99cfb845895fe;0xd9688d7e8fd97;0x1b35d982bb5a3;0xcf016e1684ebe;0x3bceb16868f9f]]);
 ((V [0xd54d810cb5a1;0xd795be5c54328;0xfcd6e927c29cf;0x31be8fde5b70b;0x3ff8bdbc224c9;0x8899ebf766875;0x2f56a8ceae452;0xfd2c5d5fb7440;0x232763dbef200;0x5b6d71ddc97] [0xc9e2ad350e826;0xd3bb3e4c854dc;0xded2937b4180b;0xb8fef062185f;0x29b5fd598b9d8;0xb9e71ef65c4db;0xbaf584561fce1;0xab221ec83382b;0x34e0e81d14380;0x5757332b2b8]),[[0xf01b9c462a346;0xf1caee11770a1;0xdd2f5d66c3b6a;0xe9e3a070d74ff;0xe223bb2413451;0xe035eb105b4c5;0xd501f28f00ee9;0x5dedffd3a139b;0x78e229938b2a6;0x7f54e1e8257];[0x7ef31f1bf7db;0x7b18aa0527fc;0xd0b42d15ef418;0x416a3993d8ef2;0x15b2bf43685ea;0x3c75a66eb0d5d;0x3746bc70378a0;0x7afdf38998669;0x554ff25eaf0d0;0xd6c9abce8a];[0x0;0xd210bf73aff97;0xadbdef2fecc65;0x7f9690332a58b;0x1c3e1f4281e0f;0xb57cce72a2531;0x51c5eef5ec115;0x48aa8660bf1bd;0xf2d0da10c20d3;0xeb7b035c1b7e5;0x17a94cf6e90];[0x0;0xc9850ae9365ec;0x62d479b9b70f8;0x41ea9da1127d6;0x454f2dd657c10;0x934868675c5bf;0x4513d56ad081c;0xd1d88e7e614f2;0x4020ee167955f;0x836828b7405e;0x6250ef956ee];[0x1;0xf68709237fae4;0x720e9d1649aa2;0xc096fb235d1eb;0xe071ddae47ea3;0x36e61ea3a2bcb;0x8b67bd6e57fee;0x21c866eae1f3c;0xa41b0c85b6567;0x507733db4d7eb;0x179d0cd6ce6c];[0x0;0xb42d1ac500c0a;0x8699c7026d6af;0xe0ba5c3338097;0x3dce42d74b161;0xd3a1e0b38365f;0x4ee6d89f38874;0xac0db211895e8;0x7ad0c80d4e5d1;0x1bd9c0ea508b;0xfdbba6cc2e145]]);
 ((V [0x72f2f5a38aeb9;0xa0cab45fbf69a;0x3a7bdfdd91369;0x8fb57be3fc47a;0xf8ded846c2ef7;0xd724260d1f110;0x592a5562dcb37;0x5e1f926e503f5;0xcb672f20fe6ea;0x1893b53eff0] [0xfd824fb7eec90;0xfe01ac1ad3a09;0x6a3069e3b3ce1;0x56ffb6028382f;0x5eef5b211d51e;0xb1943afbe8e40;0x4027bfc276dfa;0xe026f2b60de5;0x3c5fb85d8af56;0x4f87b375ce1]),[[0x909b3ff0e8f65;0x6a83c1bd5637d;0x430f5bd66f91b;0x5db197d0589eb;0x9ee7bafa9b09;0x4bbc149e50a3e;0x4b5998f54050a;0x2f05c7faa2b50;0x63322545636a3;0x576a5db03a];[0x6653ca23fb6ec;0xe341edc6f7adc;0x9a57445833ea;0xdbea4e5f5c52f;0xf0c2b5d497b22;0x1043009e84176;0x61955b13e8228;0x5e0e8948d8682;0x1c635f6d51208;0x22ff740225b];[0x1;0x91541c299cb1;0x114e2606f0f33;0x5d97e04731e98;0x7ff2dcc416589;0xcd143b12fe3d2;0x6dadb4aaf6968;0xaaa333c8355ac;0x7f5eea30af5da;0xefe3560056913;0x4b0ec889de];[0x1;0xaa11a7d7fc3c;0xed52267635920;0x860f464658c93;0x61bdcbf6a7856;0xdaa7172f9e343;0x96635acc7dd70;0x60295456a7319;0x636948f3db348;0x2ded03d598407;0xca87fcef77e];[0x1;0x2cbc9401885c9;0x980f98696f830;0x808be18c05410;0x9a3df94229e16;0xea249c3f2cdcd;0x6fcb286eadd5d;0xd6cea07a885a3;0x71999dc4d036;0x2642aec933d86;0x19ea17f0564e];[0x0;0x9297b6680d45d;0x330ae35dd5bc5;0x46dc91f542f94;0x864290b65b4d6;0x799d6097026a4;0x7eb470f70d189;0xc8a3c7cf23bf6;0x247b2277e777f;0xe2c3386a2c647;0x9a7df075782b]]);
 ((V [0x40f160ec80bd4;0x11d460d5d88bf;0x53a4169c0675b;0xc8318df4331b;0xcebb18bbf535e;0x30b5eec7159d9;0xd362f139a7208;0x4c7080dc633c;0xc20f9012bf6e;0x16bc26eba98] [0x43d54ba4dc70f;0x734bcd086f4f1;0x801faacee5c79;0x204d2e76c2de3;0xb2eb15d0fda4;0xda40f1603dfb7;0x21d03e76569b9;0xa6b89fafc84c2;0x8c1224760a4bf;0x4abed972f17]),[[0x1427ca8788085;0x86079ca898ecd;0x32f8e8dbb9d94;0xcc910400bb972;0xa2f7af66c4024;0x1d0ac40c1a140;0xc7030d95ac515;0x4f54c6f55c47f;0x4ebb7ee9f9b;0x69f73170a11];[0x33486a9d89259;0x764643c8a361d;0x2de8f2a96e7d3;0x53395d33783fc;0xc13e65d5ad8a9;0x8f1e81f7219db;0x39a39dbe6a5a4;0x59f1e0f3b96ad;0x4ec28ba5bbec9;0xe5900d0df2];[0x1;0x59a8beb471021;0x95717cc4d5f99;0x68893ec30d28d;0x6920abcc7537c;0x4186268d1fa09;0xd1df830d83406;0xe37ad0aca854d;0xbfbd2e9dfcee5;0xefa62456b0e4f;0x17f9f336d14];[0x0;0x67670c8b29c60;0x6a914accae3c;0x8f1e8b605fe23;0x7939f4b6654a4;0x9569420637d7e;0x702434dae52a9;0x75e5563a50a68;0x65dbce5aeabcc;0x7c39ac444c268;0x2d97cab080e];[0x1;0x96da32d6e3909;0x1743d37ca7d92;0x6996636dce6f6;0xa40a65fe4a798;0x63a5460c5cdda;0x82e538dd60f77;0xe8a0e7f15204e;0xeee22cf2bd7fb;0xfdd9a46705c03;0x380db855a52];[0x0;0xa3d0f4919639c;0x174f449e96941;0x34c6a48579575;0x3b0798c196095;0xc1c2c3195aa6;0xb0d250ff69784;0x173b57bce5920;0x2bc58124c9541;0x67c5e43c41090;0xd325535a4c666]]);
 ((V [0xb9c36e53b1e2b;0x6be10dc1dc4e5;0x90ed11a942dca;0x346bba9e910b7;0x6ba3b3a39083e;0x3d347522aef60;0x28cfdd1c82e5a;0xc89a4b27d8157;0x19698d920e459;0x6f275a3c10b] [0x60b470262f54;0x226cc357f7301;0x15e55957b377a;0xd59683e97f652;0x23aaac1daa429;0xbc2cd89882115;0xf83ccfebc7b93;0x169ef922933d0;0x149e6cd399937;0x2977d59428f]),[[0x77968fa7e665f;0xa283df306f01c;0x6e18ab619dccc;0xd78f0a6ffb303;0x63badcffc9abd;0x180950fd61a96;0x321cb489f7a15;0x17050c63e7f2f;0x4610a13d1f573;0x25bc6b5a7e2];[0x891bb6a9f5bc1;0xd15fd814f14b5;0x59e8b8a7926aa;0xd916d80d19a69;0x93981b2d36c3b;0xad09efc6330c;0x4852ab4aa7e87;0xd75ff911be47e;0x55eed53ab83ae;0x18d4bf54b55];[0x1;0xc8bd65d02c690;0xe9b98e6aabab3;0xc62d87b5daf4;0xad0df6775144;0xee24e5a4041e1;0x9edc23374074b;0x502f409eaf73d;0x5a46e4cc4e25;0xef26587a10dd7;0x2d9fbcb6084];[0x1;0x7f630b50d9202;0x6a2a63c24a505;0x19b8eedaea73b;0x46584b5f4b08b;0x402a3db70ef87;0x25ba77de325e5;0xd1965e645af8f;0x3cdd152539fe3;0xe90db8c304de;0x68ea1846478];[0x1;0x1f68b6fe7e4b1;0xed67bf3ee9d2;0x7b904102b26c5;0x1746ba9cd7873;0x4f641aa83c610;0x3c5fd7be51da0;0xe122942a6f9ec;0x7d0ed009d7a67;0xd179a5fc83312;0x12e1f4cbac29];[0x0;0x9a0d014502598;0x3326016a5589b;0x27db9f0aedda4;0xec6d76c5caf6a;0xbef6b76551d4b;0xc5606b8be0cdc;0x9bf5702418339;0xb04d4dfeb7355;0xebf7a8ea1cf05;0x4a9c149dd7d6b]]);
 ((V [0xe6ade2862b6cb;0x11eac78e67bf0;0x97f816b8951ca;0x9900b68659213;0xd081aeac7acef;0x376d9cd04bc68;0xa97134652391a;0x2997646790ca7;0xb93c88efe5a49;0x18c65df3a48] [0xf527228878120;0x9897d95675ec;0xd9fb031f09a0e;0x9dc2b68c982b7;0x9cc823b4050c8;0x7a6ed55af64fe;0xb8b6ee3ab577;0xd5e53e7c03727;0x6f0c1f3e70bdb;0x35f118828ab]),[[0x104a57478bbd0;0xc3cb834f9fbdb;0xddafac3eedd8c;0x252275c8b4f3d;0x465155497ce8;0x600a094dacfe;0x9c5675b0fb7fe;0x79e9977b16e01;0x608299b06328d;0x49677ea7aba];[0x68612fe340d4b;0xd268c53660a7b;0xbec4c3b04232f;0x4aa959795866b;0x77a7496c166a0;0xbbd6e45b129c0;0x6bd1ce94c98d3;0x7a954caa2697;0x278852fd3cfca;0x4a6c5327868];[0x1;0x767e4ddc0dd29;0x98586b3cd0ccc;0xbc33f9fde8b31;0x6372fa8a452b2;0xca4542d0e2ff2;0x76a60175064d0;0xe71740066e42;0xfa8ccf792357e;0xa2ff81d7cc6d1;0x345259b5a3d];[0x1;0x8f8c648985880;0x233597ff27287;0x8f87576547742;0x6f69c8642f975;0xf33e06dc397a;0x94b0b969abebb;0x1ee8ccaa404cc;0xf9df31f3605e0;0x4f48748bb3068;0x18efa3463dd8];[0x1;0xd46f18a1e7900;0xa3cf88f31b2be;0x459c20f7e9d32;0x87cd6fb301a15;0x18e969e97b719;0xfc1bbc7ca369d;0xbe20d4ad9e4af;0xac82f77c5f3d4;0x8ebde3f3a0b65;0x1c411c4b1f8e];[0x0;0x6caa899e1dd0;0x4528df8253f30;0x62e60fdd39369;0x4fcbad57830c9;0xf6d5e28da2a67;0x132e149988460;0x6e58f223e3461;0x909f099ffe84c;0xa783c94411ca;0x928b1c19367f1]]);
 ((V [0x8e3224d0dc6e5;0x367ed0efbbcd6;0xc2c3138ec9799;0x1e8b56f8be619;0xc23cf9336cfda;0x91937e938e9c2;0x3eb3011b7af0;0x1f9feb989ebe6;0xc24de5cc20563;0x506647ad760] [0xcdd32d90fc0b7;0xe98847caf094a;0x7fa878b39571a;0x12082b4340e8b;0xd1f0744ceb3ee;0xad87ff4d40b56;0xd084767e06e73;0x2616f13d0e981;0x87435c9c9d7f7;0x71c3d1a43]),[[0xacfd4b56aef83;0x22a9f5d77b939;0x9a6c8574921e1;0x2f35efa5efe6;0xed579df093138;0x1e2fb5fd7d9f1;0x72bbcdb26e82f;0x4153812aee7d0;0xdebad63d9cdcb;0x13dff7bd5ed];[0x7603e9458cf43;0xb4233de75a61b;0x41ad7ebe40763;0xdcba4abcc3e3a;0x8c97a8d71f65f;0x7d371881973a3;0x8d146c1375ea9;0x1f88ccf4de92b;0xee6b26d168590;0x796bf9df130];[0x1;0xc779c37960ae9;0xa9a2350e70ad9;0x542296f1a24e4;0x490afa8f2bfe3;0x59700555a237;0x817a2f30d4365;0x19c99f676b496;0x638ccf331a471;0xe8b4a07d8762f;0xee0c5d17d9a];[0x1;0xfa301945b9ac0;0xd548498a6f348;0x2afc0b6c03bf5;0x84ca954ec1506;0xbb9a5c615bde;0xdbaede2a0085c;0xcd6d8e4b86018;0xa5a30515f5a47;0x66b3ea0835e5a;0x2c7c7831433c];[0x1;0xfb8a9ec7b39f9;0xeaef12eda8fc7;0xbc7d1b41a9651;0xd3c7c76d725b2;0x519597c1a6f2c;0x86783b6334b37;0x991261f79b45a;0xd93c8b445f0c3;0x8375b64744399;0x100d001ba2ec];[0x0;0x39ca7acb0f8f1;0xaebdbd3019434;0xb15779932546f;0xca5a79cf210f9;0xa26e5e83b82fc;0xbf829b445eb3f;0xac8c784c4c6fd;0x7d415deaaa738;0x4da313a6e4580;0x275e66a8df15a]]);
 ((V [0x43e1d3a51226f;0x2030acae73b87;0x4d3de81a49de9;0x4a309105b7013;0x66024fc58ce1d;0x198ff35478fda;0xda44ce4b66ad0;0x6cd045c358aa2;0xfa5773f20a69f;0x174fe5f9b3b] [0x18d6e37a74e62;0xb7be38b46b077;0xed804b657e42f;0xf182d0b606d85;0xd7dc92c80999e;0x9b67d92f9ad15;0xfe503c64e44b7;0x68489e636f644;0x31dbe6501f591;0x1a328d2f4d8]),[[0xbedbbaf5d2a7d;0x8f1d82385a670;0x89ea522bf0b59;0xb474516e1736f;0x88469cc2f2de4;0xd1208eb68aa99;0x16725182c0c9d;0x48bffcf735102;0x92363f04aa9bf;0x7fdb46d4ade];[0x44a61070be8cb;0xf3a74ac24884b;0x4aad3ec6eeead;0xdf13d3a4244e4;0x7fb77e3e4faaf;0x9a9ffcb8b14fd;0x235eb9f26ccdb;0x6b02bc40eba24;0x562d8b87943bf;0x3abcf9187c9];[0x1;0x877605d4360c9;0x7ff8a51331805;0xf0920304931b7;0x971c51d293658;0xe1e20efe2a689;0x5d0581c518680;0xc37bb7a46eac8;0x6ebcef55c3cc1;0x41a39bc036e6f;0x42f9c6ddc10];[0x1;0x9da5997642456;0xe7096e585e7bf;0x7b716583b32f;0x234af2440427a;0xc1674e4be4971;0xae95614287aae;0xfc931f28e5fd3;0x307489dd9be1b;0x7437fb4619f92;0x15f8a9036f00];[0x1;0x1f6b717885df9;0x94e4a83828a08;0x6d000d6030ec7;0x9e1994e445eef;0x44f950aa87a22;0xc38e026a24766;0x755d36fe96337;0x411135aaaffcc;0x22d08736944c;0xf0825276afa];[0x0;0xfbbb1f0a1e7bf;0x8fc2d3810d1d3;0x5768517a80d58;0xec4186678f183;0x98c944ce9b336;0xafd91a033241d;0x3dde488ff3963;0x2c249c9497481;0xf7735953dd1cc;0x3a264f01391;0x1]]);
 ((V [0x37c1e570ceb11;0xb89e1d08abcf3;0x37144d012a800;0xfaf8bc8d50006;0xbec96d7ce1153;0x257fa00f4400c;0xffbaeb4834000;0x901e4552e0002;0xded3362068fb2;0x664548fd39] [0xd6cf00eb133cc;0x14359c1b8cc22;0x54e9dfd89de80;0x7cda12a6325dd;0x8620fd7d8f170;0x446d2be176cf2;0x338e1591b0413;0xd9fea61f9548;0x3793b63e2a80;0x3c89f6daf45]),[[0x1c73b0929ada;0x6bdad92103172;0x364122cc91da5;0x9e347e8446e3d;0x47c32af4ed35e;0xf7e2caf341489;0x49d67716eaa01;0xd25c071e52728;0x6f9d11114da8d;0x66358b3f1cd];[0xc76740278bfc;0x32d873654afcd;0x7b10f2aa9b80b;0x8fb2700d1c366;0xb14a9654b9167;0x9084603f233f3;0x6dce68107600b;0xf41abb1b3d48d;0x8729402d9af99;0x1490a9be3b6];[0x1;0xefcb2d1a1bb91;0xa7af67363fcc7;0x5f9be8248dd54;0x1745ba9a0dd69;0xea180c6ee07fe;0xa0d2dfbb24ad9;0xbfd9b57db8f96;0x56c00122c01a6;0xcc6d8ddb82378;0x24e26af73cc];[0x1;0x304ecca6c5468;0xd195c25582001;0x55d13c9079257;0x98c1a35dab931;0xa10a0d6e134a1;0x1ef11ed55cce7;0xef7039e2aa010;0x417fc1dafa1;0x9b383e354f394;0x518d7e95758];[0x1;0x4c010c003dd64;0xbfb263bfd0bcf;0x3ecb23f576b09;0x5ab6aae64b7f7;0xcda8f21e676d1;0x2c04559e962f7;0xd9481f82532d7;0x17aa0623528b;0x4be565b84e70d;0x186ad4b3f88];[0x0;0x352b228472b8e;0xd0043ce50519f;0xb7381458522f3;0xce26b3badc881;0x1d9127fa6c2a9;0xbd1677ef4d3e1;0x66a1b0cf361e5;0x38e1d0fd4724e;0x1c487d15f936;0xcc3155cd37034]]);
 ((V [0x5ffb7983fb53f;0x63f7eba52acd9;0x42146c827b82e;0xd1fc36059ad95;0x2d6ea974e0b4c;0x42bb419390ce7;0xb81b44c13ed37;0xbd4de759c5bf8;0x7d9ef0cf73970;0x21dc0625081] [0x1617447bdee1d;0x2beb6889b2341;0xa555e7d15e9d9;0x649c59abcf245;0xa41a38d3bfbcc;0x35d75800fa15d;0x12935def6b418;0x901bec127e0e3;0xda69a4d9317ea;0x539ee22b28]),[[0x52831e34f43c0;0xa909d85afc7f2;0xca67c1494819b;0x7d149d38fc12e;0x841308be21270;0xdf2d6cff6ed9b;0x54688ba36a07;0xb546c4bfe629;0x1ca6820f1a4f5;0x1d30f6b50f0];[0x3d8f4cd6719da;0x56ee1e055d32d;0x240e6df43cdf;0xa48a138540681;0x6416b05efe016;0xb63bf00d68413;0xf711da496d6c8;0x9f58066a7bf77;0x7cdd4e0376d5b;0x45eea33322a];[0x1;0x103d0eeda1691;0x462b98936c8e9;0x8cfb81192e7e5;0xe2b3df0cf2a8e;0xbfafdbc4c2e7b;0x761b731163e2a;0xbc128dfa95e0a;0x561e216d39362;0xbf4ed4e836a7;0x8b8b8fd470e];[0x1;0x736541a1da00;0x344de29484119;0x4db29377a0cb3;0xdfe51a03a5a87;0x77ca7369b0b12;0x1140ea1c2f720;0x6d8c4ead6d19d;0x6dcd63a032bab;0x977dc3c465fd7;0x187fafe80e3c];[0x1;0xd07d60aa51000;0x344260f83e868;0x524645dd58a8c;0x6c40889b0ddce;0xfe89b1daf6dd2;0x662aea2a5c35c;0x796766a598d68;0x2b4b97ea93edf;0xe65d1502f651c;0x56a11c04708];[0x0;0xbfd5302226840;0x974a3a350c69a;0x542061a4e2bfb;0xbaffca5f4fb1e;0xd29e207468f70;0xe1880bf5ff6b9;0x88d7056f38de4;0xff5b4667cf68d;0xf49ee0e3ac1b6;0x39f552f6c87b3]]);
 ((V [0x8d03dc2cff10b;0x6940542a56c0d;0xcd55500da73b;0x1dc3afd22fc4b;0xc5f616dc9d271;0x853490b3886;0x471a8ff84d6bb;0x19d3a1adf3b43;0xcc3a310a6dbf4;0x49342a8b560] [0xc43739141f6f2;0xfab7483c61d8e;0x6b3ceb1ab190d;0x9ed592b91ecc9;0xec7998c275e4f;0x68943faed2beb;0x7d0bc146a27d7;0xb8dfe12d97564;0xe17df4e6de134;0x5e76a5f0ab9]),[[0xc5bf0db59d4eb;0x21507f59041a5;0x5369d39973eb2;0x27aaf8bbfdb09;0x616c492b7f8b9;0x8b789880fd56a;0x77fc551c88ea1;0x9720103768e79;0x52a66702b0a67;0x2e01092346c];[0xb2f028e30db8;0xafe79790c1349;0xd273af168bf0d;0x7a8bbb3ec3725;0x1ce12bc3acafa;0x78061c627a415;0x2dcb2853b19e1;0x7003bf007949d;0x8f90340f41fbd;0x1b6e5ce5663];[0x1;0xfc33b9ba0aef1;0x342ddcf6499ae;0xa8819e217f744;0x20084c457c801;0x2a4ba77dd446e;0xceb5328785aa0;0x4dc51b34e93d9;0xf7faf98f3dd03;0xe50312ec0ccec;0x2de7cc6a94a];[0x1;0xb4d6c13aeba5e;0xb2bc6bc642c71;0xefd614b2c41a0;0xe56c474e16d5f;0xcdaff0926a998;0x36ab9cef8e625;0x54a5cbf395502;0x3393d0fd64ad4;0x2a9cb1acd446f;0xa0d47490b58];[0x1;0x96e724edc49a9;0x12d773fd841ec;0x2884f35211c6d;0x706f4f4888304;0xbeb0105ff5a07;0xc5210d3cd7767;0x3f74d74153d38;0x8995533f0871a;0x71dc776077fa4;0x1094faf174c6];[0x0;0xabb330df20ef;0xf8cf27ca7d0e6;0xdd7434bc78a08;0x5c98f71b3a339;0xa5418020aa52e;0x8832b9a08d961;0xd4798129b16c3;0x59d5cf1e6529a;0x7e6601f5d5994;0x5b5a8e28f5fd8]]);
 ((V [0xd0de17f4bc628;0x54a7f9f1b063d;0xe997292be56a6;0xe2a85dc27744b;0xc5a1b202712f0;0x585baf61d88e3;0x66a493bd21b6b;0x5c2861c44d958;0xb660c87a17d6b;0x7758ae5c730] [0x8847e3f49505a;0x10b75b98f5b2a;0x11bc8731e4346;0xfa528068a4d90;0xf9f33e3acf7a7;0x8d7281deffe04;0x4e8ee9b02d6e5;0x1105818ed9a30;0x76ee7253133f;0x792bd129017]),[[0x355b704b05d9;0x75b3e92fbd047;0xb5935627f4eb3;0x512e403a080c3;0x148b4fdc99c2c;0x247891b9152df;0x12553a6e4d288;0x4fb8feb8822e0;0xb2e20ed7c8c07;0x42900e97553];[0x44511ec9c5498;0xa944f2ab0bb8c;0x37e99b4c0c5ac;0xc6c177973a1f6;0xba9dc97d95005;0xac88c034b6439;0xb063d46899289;0xcffcd9e9507cb;0xcebeaaf2f106;0x938cff29bb];[0x0;0x976eea6e85b97;0xce363ba09b468;0x70767f739d4be;0xee66878f11e4c;0xac844eb1c9403;0x1ea572a6676ec;0xfbefda0cecc53;0x268590f831db1;0xee42d1b8b09a6;0x176bf5e4561];[0x0;0x12f314a71a3fc;0x279ecfd2fb1da;0x3b099faf891f1;0xa8757a66bd1f5;0x3bccaca59424b;0x336e61e0cebf1;0x34f87c727af9d;0x638d5c15ec584;0x16b15fac4a186;0x2aea1bef3a6];[0x1;0xd840f46cc9c61;0x4df8f7c441f6c;0x2a57f592b6832;0xe219bf171180c;0x1c828ec77a651;0xcd4ea090d6b3e;0x8954245eb76c4;0xa2151cafac3c0;0xb405b5066e3c0;0x1f0e4d5b9583];[0x0;0x5e3ecec40849e;0xfd40a317fc0db;0xc77940daddfab;0x1a68740dcae57;0x9ff29e82db33c;0x51595f54c632a;0x4a2e467cc47d3;0x276753d92e8ac;0xe7350a12b6943;0x839b698cbfc70]]);
 ((V [0x211c674d35cb3;0xd121a4fc97c69;0x12d226bca0b89;0x70627d441f987;0x438f349dcda12;0x48d5674288528;0xa8de7a0c04c38;0x7ce866830911b;0x4789c7cdfcfe1;0x5b9046da2d6] [0x3fd192dcaa019;0x47d119babdbd;0x2b7dfe5f59f88;0x542a1dc2abf6;0xa78ad6e3e0048;0x5a41c2ca3d711;0x486ded0e1d884;0x6f845341029b0;0xc7904ce5ee5bf;0x454023df68d]),[[0xb4f8dd22b4206;0x6c19beb3bb66f;0x131eaf3a9a1fe;0x1e4ffea6ded17;0x7c1b6f8594e4b;0x64cdd484272ce;0x542c971239eab;0x6b5da04ed8ad;0xeec1067e58c61;0x154b85e2d3a];[0x2bb19611b26f3;0xb802b11dc24db;0x7245498c4559a;0xded24731f20ea;0x6d9d3807a5c78;0x5fd39c91f7bf6;0x334d9dbca4826;0x9f41ab3986e34;0x533ee815366b;0x75835c3caf];[0x0;0xcac2ca00b1dc0;0x1a99ecb5d7fad;0x79ece51b8f304;0xf87ebe792820f;0x237aed8f5762a;0x2f0527ae5d7d7;0x266ae0c9c9a8;0x38d01a407a2ee;0xa567a927b958d;0x6096b61cfca];[0x1;0x9b41b56acbcb8;0xd7e12d7a42d18;0xc7b500e7c557b;0xf0063bc9b03e7;0x46cfcc8fb837;0xdf8c37a8a8a00;0x80d7e4b59460d;0xa522426449adc;0xfe9388c173aa7;0x3bfe51faee];[0x1;0xf1611e66c4be4;0xb5580c243f754;0x22f9192881f3e;0x6001ad0d8f6a6;0xfd52ddf28cc9a;0x98b8fc189c91e;0xf4780824ec886;0x91b9aec2443dc;0x6211cb09d2f36;0x290f852a847a];[0x0;0x82c02e5c0fa28;0x25d4ad72bc8f2;0x73c02cd1f7bc1;0xa5796c68c88ab;0x4e103827c094f;0x7b6a69fa223cf;0x5c2439b9a9a0d;0x2f5c11b7a8bd8;0x5d06a22d026b8;0x29341ea6f0da0]]);
 ((V [0x83ecef7e27f25;0x1f781936c75e2;0x305570411c7f7;0xfdb0aaaccd7f;0xf62048463a51f;0xec3ac0ff72d05;0x928dbfb62bf76;0xd46a2985e9218;0x698fb27809a9c;0x7bb5d81b8b0] [0x7a0a0058c9842;0xdc4c4ae8f615d;0x9b888041fe7d4;0x8f72b5b35738d;0x4a2b3f3524c5c;0x75728b03c6078;0x4153ed3931b31;0x8c1634b375ed;0xa420545229233;0x620db15153]),[[0x617b0851d6b92;0xb214644aa0c4b;0x7831d8f81e09c;0x1a87929e86f67;0xbe151d50a502c;0x5b67f1780a9a2;0xfa608bfb03bf3;0x75813ce59a92;0x7c163fde37bbf;0xbb6ca414a4];[0x299ab8f23bfd8;0x58f61d3a41f7e;0x6e42f22663860;0x61d4471860e58;0x81028590e99ed;0x59e6d004a3822;0xfbcbd6119d746;0xbc1dbdb1ef067;0xf6cd56c494bf9;0x17eb4df9f62];[0x0;0xf461a4ec7cfe7;0xeb19a734dfb9e;0xdd944e01d532;0xee17631ff00df;0x90db8134f8045;0xee9b3e61d51a7;0xb13616ac10642;0xf4695f489eb45;0xa396b9b538c7d;0x11a92b69de4];[0x1;0xdca4f4333a044;0x28ff279f9ec49;0x36742edbba26c;0xecaf50a87d01a;0x536a589c70a69;0xc0055bc313a5b;0xde1668a7e5d13;0xca6e6e422689e;0x71579777e5cbb;0x82d70472450];[0x1;0xe58456982d104;0xf3f19a6dd04bd;0x2e5466f40308;0xed923182f255a;0x4613a6e26a31d;0x5bb155f45e83d;0x2ee2bcf08c588;0xb9acc2d5db4a3;0x94f5d082439d9;0x2649a5bd4299];[0x0;0x16b2ef23c3056;0x1972ac8dec1c3;0x858c63361999c;0x44e0d5237aaac;0x5a6e644bdbc3e;0x2c8ef0bf0d203;0xfaa76284b2bf7;0x95a278446dc56;0x959a5eeefd153;0x16df982c3b07a]]);
 ((V [0x9aa1dc6bec1f1;0xa720092260034;0xec369b31b354b;0xd805590f45437;0x5005375314f2c;0x91b104d9e40a7;0xae2ae37ea7f3c;0x154fc5b081c18;0x6c311fafcf83c;0x128e42f16de] [0xeaa67bb992928;0x8ba2d7bffd871;0x2ed90b77a0574;0x9e324c5dce7d9;0xebf96d6768800;0x7ec0534bc6670;0x8b418531e28f3;0x5c2c2d6bea6f6;0xceb2aface3cc2;0x286594ddc52]),[[0xa306d09793d9d;0x9477cccbfe5b8;0xe7b9d8ff5f1f9;0x2fd830e499b63;0xdb108d8e9cabf;0x8a2b3c33fe0ee;0xeeaa121753b79;0x86acaa2ba483d;0xfe8741848f46f;0x6cb9c48e3f4];[0x30ad4a87e08fe;0x2874614d785ff;0xf1466aafd7112;0xc8c50c1d06827;0x633e61908e7b5;0xb607609a28e86;0xcb71639dcefbd;0xafe4b311f654d;0x692c8d0b777c6;0x30573c00e7a];[0x0;0xfde51637b54b7;0xc919af9140be3;0x3620de0901c3a;0xf9a81ed78d275;0xb013939a95beb;0xe5d4c0c61efe3;0x7713ea88757c9;0x883b53704ad5b;0x5b23d36e0752c;0x16e205a9baa];[0x1;0xbb8ee28a2d3b4;0x8704228051d3c;0xf68200c6454c7;0x6eb24de3a6396;0xf43fdd3f54556;0x6fee7b1a19c5e;0x55b27b2ce0ea4;0x785655f5443ee;0xd1ea23dfba201;0x117a22c86533];[0x1;0x116da11aa1b39;0x2ac4094a69f57;0x3e38a064c8f09;0xd395741f1f0;0xce3453a9da172;0x80ae65473cb8a;0x29f690a5088e;0x8ad4974f82dce;0xdced76aeae4e2;0x1b7995d05a40];[0x0;0xbef4b151d02f9;0xfa481972756c2;0xb495073d5e29e;0xc863189d8db10;0x5ec2e2b3e718f;0x1534c624a4930;0xe40e99beb158c;0x1cbca4b6e057d;0x882e50a427a99;0xd9dc8803b1c21]]);
 ((V [0xf5f5fcb9d881;0x292558da206b3;0xa778ee578304d;0x728b76e24bb4e;0x79569e6a9b99d;0x7cb534829f2;0xf33103d94a0d5;0x6299a01df68ae;0x54f0d4a726fa2;0x7814c149f69] [0xd3e19e69bad76;0xc969ff3a95620;0xbffb063e779c6;0x8a8067ffd8226;0x1249d24706f75;0xed9bfe05ce53c;0xf964bb48802be;0x424ac5e964d00;0xd20c7ddfa8453;0x64b42e65b2e]),[[0x375f3d2b5b978;0xc4887c692063e;0xd6717d76746a3;0xc95987d1293a;0x222dceee8bf63;0x379c9a869a5aa;0x7c7ba49e2194;0xf8871849e75a1;0x3e1a1fcfd1ae7;0x7d3677f5825];[0xfc5c9a760d76a;0xeb05337d8db4b;0x872ef47f6a821;0xc7dab45b1e237;0x6c449d0a353ab;0x12069d5aa99cd;0x42e53979261f9;0x4be6f7bdce5d3;0x9640079bcd4de;0x19386fab725];[0x1;0xb4ce9852ee851;0xc4e03b7846527;0xc54ccf735d9cc;0x8c431f943f331;0x615db5a65e45b;0x40f3c919dd5b5;0xf86c3216a0fd2;0x1a8ddf850c720;0xb486ce47fe3da;0x2fc03e66531];[0x1;0x18f2639844d80;0xea12e28983ff8;0xf24b9934ff806;0x40df1a3405dc2;0xb460a896216e1;0xbc4b315cb5013;0x3ff580b569d21;0xb2ea41be3f47a;0xbaab40618deb;0x4849d5d615f];[0x1;0xea9aa71c88440;0x555a2f2c3f4d2;0x69ea6c2b15cd1;0x6034a71f3feca;0x17c0a2c3c1adb;0x583a770de971;0xc6b2b243c7886;0x8abf6223e940;0x789b258b5664d;0xbfe614e07aa];[0x0;0xf4d134a1454f8;0x30b5dc36844e7;0x1d464f2d1502e;0x7dd5d3ac66ff8;0x243ce894b80e5;0x9f157affa5575;0x997818764da92;0x2073360c672c0;0xbaa5929a19cbc;0xf96ca2512db2c]]);
 ((V [0x99f8ab6c799cb;0x29c006eb81e1b;0x65ab576917fc7;0x7812c7b00ea6b;0xf0531669fd9b7;0xec685df04a139;0xb70eb74368614;0x712779260e989;0xae185a50775b7;0x2ce7e4274c7] [0x9999eb30cf11e;0x18152fd50dbeb;0xd0a5f57b7aefe;0x16361ca7ffb2b;0x3ddf441a5442f;0x2c6bcf8fddcae;0x35c98b8fa1e7c;0x156b8cd49c971;0xb77f6762fcd8c;0x7bd896c5612]),[[0x6052c391bff7d;0xae2a40a7eb992;0xabde916f79150;0xca31912126601;0xc6cb940195fd;0x30aa6711647ca;0xed2bfeb5259e9;0xe005de2670a92;0x4f3275df60f93;0x6e5c214bd6a];[0xf689edfa7ba66;0x8c76bb37f2c48;0x1c5c036edb099;0x26774b7978977;0xe7fe5feb52238;0x4fb9343dce0e6;0xa8f31e40bed2;0x96ff721a6ae68;0x897c5e3c490d1;0x3d1aece4809];[0x1;0x29d75743d0271;0x8db0259442d32;0x29b8e53b77e10;0xacf2a965b1b14;0x4fb6994433add;0xca4884350c5fc;0x48ea125eb427e;0x7d4768a042b29;0xaf652c81276e0;0x98eec00c7d];[0x1;0x65699b5183f7c;0x9d7de300ab2ee;0x108dded9e12c1;0xa85db14fc7f60;0x8057259fab286;0x9baf9c7c5662d;0x58506773920b9;0x330eef8ca6566;0x9f287ba497198;0xc0fae635490];[0x1;0xac5e964343ff9;0x82ce55f3b85c2;0x2b8d19760e12e;0xf45dfc8ea1f47;0xdf3d660067490;0xd6fcce1615581;0x6a9f29033d36d;0x5dbfc438d6fa0;0x1a89b43250d4a;0x1dafc31ec34b];[0x0;0x2131f3d6b917f;0x9e0168aab737d;0x21c688f11962f;0x198243a63c2ea;0x32825c3b129bb;0x578e5edbaba4a;0xd969cb58b18e9;0xad5df29364853;0xf6daffc98f9e2;0xdba655d879cec]]);
 ((V [0x19208603ab081;0x236e46250e810;0xc67a8fca257c5;0x1326a4d168b5b;0x1150522790c25;0x68cde427ff616;0xfb58d86f10fbe;0xe024de7b0c087;0x1b2ac48fa5c40;0x16a8c68d60e] [0xfe376e3a50bac;0x34aa2b4b800b3;0xb95e955722868;0x7ce204337e5f2;0x7b2e940e5ca26;0x90e71b796624e;0xca23c5ce531ac;0x134e6dace36d2;0x1ae7cd813940e;0x7ef595340b4]),[[0x570b97d1632cd;0x36d4453dc0f48;0xa9820daad7f02;0x5bf1c2c661a2;0xd8866bca6d9a8;0xbf8d44d52c0f6;0x541d24d9dfc17;0xc5da5dadef3d;0xec2a0a08dc38e;0x5795998f477];[0xc05718b890cbb;0xce00ebf3ea587;0x78c57be85e303;0xa0294a0c8a773;0xf1b41c89b48c;0x9ce98aafd750b;0x7a310f8bdff25;0xa5746dd94e58a;0x11a5634a9d48;0x1eff967e2c6];[0x1;0xe897c2b95ece9;0x364028f853e77;0x2a2567092b83;0xf5ea9b8cdf48a;0x1acf28c843acc;0x334613ce643f8;0x4589bdf9f211d;0xff04394f5b78f;0x790325ac08794;0x2e3e1c063fa];[0x1;0x7ccdabbd6534c;0xb1c11e6505a5a;0xf1a29d3bbfa55;0xc9e9b1dc997ac;0xfd61d4bab714f;0x873382e9c711f;0xa9fdf6210dfb0;0xdcff26e303c72;0x8c9fdcfcfc097;0x10819c9aabe];[0x1;0x213a427491319;0x737459393049;0xc59f096c20d78;0x484c7e828074;0x817d642f86139;0x69a23a0183ca1;0xab68161730725;0xfad9f6d4ae205;0x30072bd6a1352;0xa5031220f4b];[0x0;0x30767081129ab;0x593e0e461844e;0xfcd476e3f7463;0x2c355d51816bf;0x1f111940b79f1;0x91f380ec89bee;0xb5aea9b7b1c3d;0x62ae8b344b6cc;0xa2d15cc2306a2;0xad9c654672d7c]]);
 ((V [0x96d06a8e63446;0x99c1a3fc1d7c2;0x193ad25b6dc71;0xbb038d795d327;0x60c3e4248daae;0xb58f951afc755;0x2c1472ce0207b;0x9e9703e983c6e;0x4252ac2119389;0x55f4c935485] [0xbcb28b947424;0x5282608e8ac09;0xa0e912b6e2f6b;0x5d4097de569d9;0x225f46602c96b;0x8ba3ac6d304f;0x943df05fd65e0;0x8595011ae9dae;0xb1daa650f1892;0x717d6f69495]),[[0x67f5c271ea750;0x63864b9f7c4f5;0x41ae30085bf07;0x62d00cd021acb;0xe651377feac34;0xfac33ba8a6e68;0x9daa4e56b2d6e;0x7185840e300d;0x65a26bac34aff;0x320ff491e62];[0xf647ea7c511d8;0x7512f37bff3b9;0x1e4cd3ae36c24;0xbab6d6deb0014;0x8af21f77ad752;0xd96940f8d63c1;0xa00008a36d6bf;0xca1cafafc1ca3;0x17045a49edd91;0x7dcfe58655a];[0x1;0x1c37a79c3b271;0xcfa43fcd2615f;0x747dec617a3a1;0x949ed8f2d1d87;0xc24ca6ff65c49;0xde08cbe08cd5a;0xee84975dfc291;0x3b5430531397d;0x8fac910915aea;0xf79ce841aad];[0x1;0xb14d61553bb80;0xae21068ff9088;0x99683b0d25cc6;0xdb1d93d734416;0x672ce1b1f6b4d;0xdc5ab57a460f9;0x2bfe216f936de;0xd21467c9658a6;0xf943db6225311;0x28f8fdddcaaf];[0x1;0x809428a576900;0xc95d83dce3874;0xbe860173927bc;0x90b9ef89315ae;0x3a8283f514c9f;0x2bb746784f97c;0x88d7569c2d019;0x4663626b54aaf;0x249dc00a67879;0xf2f83390f2e];[0x0;0x2e556d89c6e0;0x87b085cb2e258;0xf64763630dce;0x66a7b317d747f;0xd3588bf7720c4;0xf3209271c536e;0xd64ee6b1a6d0e;0x2f35bf098b24b;0x9bd98489a859;0x6258517a40989]]);
 ((V [0x1c25e007ac524;0x56cc9a7e3bc5c;0x156a832fa9e53;0x55cf7912d5652;0xdb6a2c0e44427;0x98a4fd324b14a;0x4cfa1953a176c;0x3e386d631df70;0xc11920614a465;0x146c3ced62d] [0x5949d823c809;0x4e504ab545906;0x525025f2fce18;0x5c1db93df4f8c;0xa1b5aad9435c1;0x680124d85b6f1;0xbaa4e87b10a27;0x16a90fd30178a;0x9a7e77e90679c;0x84c0d69bd7]),[[0xa727c724fd8eb;0x887d1911c4acb;0x38b26bb455495;0xc7b235a653d1d;0x3271ea9cae1aa;0xbba0ff176c5e5;0xf33d79b26f2ce;0x6cf9745beca3a;0xba8356444b0e8;0x76fea38f7aa];[0x8b0fa6870179c;0x236641a010afd;0x5541426bffe32;0x7d99c2cf569c6;0x5a135a8211e5;0x217acb699e87;0xe5c11a6ce0701;0x25cfe3b71b0;0x9ac8988041a9c;0x7e63d1c3497];[0x1;0x61df4b43f86e4;0x1714692d1d6ed;0xafdb12fcc95da;0x12206f38a78be;0x45178dc9da685;0x3b37733cb92be;0xbd2f39b05f1ff;0xe5d6c745a1773;0x669923ffd0839;0xc30eb42b777];[0x1;0xb4a90a9787c98;0x724cc1b564d92;0x35b13357a567a;0xd3a5ff0dfa236;0x80de66262c4e6;0x58359a34d825d;0x117350c768ed2;0x16b787da4d9d6;0x25306ff175384;0x22354194d8a3];[0x1;0x778bdaf8621a9;0x58d1339f7fa15;0x801c6e62bbdb3;0xd1e999ff1eab7;0x475aa3bcfb892;0xee0deba83d372;0xbc48e305ef463;0x448e2ac0cb9fb;0xd532752270ea1;0x1120c268d6a6];[0x0;0xeaffdfc872d15;0x389912cae5cd;0x42bd0267c888e;0xf03b45ceed111;0x2a57a0c3c1434;0xc1543d85b3676;0x73aed1b386a0f;0x29d4847b27beb;0x6e2f998a5688b;0xedbd9f08e4c28]]);
 ((V [0xc849e941a4e4a;0x6b2d85ce7d943;0x9be2bf8cb438a;0x95e3628ec04fb;0xc918b133e6a56;0x25287c1aef9db;0xf912ece8e53b5;0x330adbf93a80d;0x39c0fe472750e;0x20ea177812d] [0x2150578aa6a43;0xb349a8e1104d5;0x109cbf1749978;0x22bda478b77d9;0xd2120d6c66d49;0x25be6a2144bea;0xa87984deb8e58;0x6685fbb4ca25d;0xe1b6649b93d26;0x5c1616a3abd]),[[0x73b350edf6dd2;0xdb2cc9cca5047;0x982c665e76f84;0x5a0be19015f18;0xb9d18b62ba86a;0xa1e458020e9ba;0xfa79dc6f8f505;0xeadffa451ed78;0x98adc69313119;0xf1a41dc5fd];[0xd34f299da57d;0x4fd7b2c69484c;0xa5544d0f2b732;0x87e45037ce132;0x63bdbd90f193e;0xad4c865ee2cdf;0x360ab6e51f94d;0xfa2c3ee606fae;0xdff382a976344;0x3d0588ef4c3];[0x1;0xfe5524d473410;0xc02750b2898a2;0xb76f988ee2975;0x2f96b0f5c27;0x75746f772992d;0x7e9728ccc263f;0xd9361bf43a22b;0x5d03841af7bd;0x20a65919a49f;0x76c8e34d7c0];[0x1;0x3177c3173f284;0xa70d895e9cc92;0xc4ad1ea9ac239;0x54f91b24ce789;0x32d27074ee179;0xd5490051a6360;0xdd8d13786c2a8;0x8f702fe25b5e7;0xbe6d8a75a8001;0x16c2bfb07be9];[0x1;0xc26205d736204;0x897fa313764c8;0xdadd8b1f69c5d;0x41e7bc81ce2b0;0x962aebf98bc;0x1e12c5de2803b;0xa4a9a40320778;0x344dfa2d3b83f;0x644b91a69abdb;0x91bcf5d3273];[0x0;0x961b7e5c8103e;0x162a6023c5d71;0xd7bb682a3c15c;0x61da92f519d31;0xd281a2524c6bc;0xbabe4a6bfbe43;0xae29034c33591;0x2732104cdbfe;0x4db993acc5e1;0x1d796062e730d]]);
 ((V [0x84b48e981c709;0xac523b897e49b;0x5f22798263eb9;0xb8afffa151e0d;0xe72b709087060;0xc47cdb1a4147e;0xf9d526bb96e2a;0x7f94a8a53c96b;0xff8dadcf4b971;0x69ffc2c4c00] [0xba80430546fea;0x9a7032c10b39;0x38da1abc3a8f3;0xa0e25c27afdc8;0x72f30f19b93b0;0x866ade2e420c4;0x70d3445e091fc;0xaa7ce2ef7da83;0xd0b0bb2a03bdf;0x101fbee58a1]),[[0x127e4ff85479;0x84499114fe1c9;0x46ce8ddbda9eb;0x6c20ec4d2a241;0x40620e32250c6;0xbd0eb8b0bfde3;0x9c6a5deb91153;0x3c6fd7c6fed81;0x7265cc7703fcc;0x28e91f5a37f];[0xd3f5adddeeb7f;0x5b5d999182d9d;0x1558dcb0f3afb;0x44eaa95570901;0xabce943f19657;0xd4d12fa5cd8ae;0x1418b7f996d3;0x4e64d0187857b;0xc20cbf4dcfa9b;0x7224f1d4b89];[0x1;0x97baba960ed24;0xb0404c704e3ab;0xdad9c39283fca;0x9d94d2e5ae9c5;0x3888e1bdb65d7;0x676362b40d1d6;0xc14ea306d18e0;0x53c0e47267bd7;0xc067601c64294;0xdbd32bcf947];[0x1;0x2f36c395876f6;0x8a6a6ebd57ed;0x5846822f402ea;0x1ffa04ee1cd7e;0xaf5ee71b3839a;0x5828852203be9;0xb6a76363c199c;0x16392ac5b90da;0x289bc25938893;0x272006f4f19d];[0x1;0xe46a1218bf7a1;0xf0e9c8b1fc79a;0x3931ee4359237;0x9cd12a91f9a8;0x70a5bfe58517f;0x9c8f146a24b10;0x273cab46562;0x384ca8f5ff809;0x2378122abe553;0x14a94873d3c5];[0x0;0x51e884017ead0;0xe1c944d1dd9ea;0xf224d1dfcc3f1;0x1fc7769f16e5f;0x4116cc358dc63;0x7d8e539d845a9;0x5ef5ceff86319;0x181c7a11a07f5;0x9ecf6027d883a;0x510b6047d72fe]]);
 ((V [0x4bc88cd3fbd66;0xc4742bbe3fad7;0xa115161c426b3;0x6685687fda17a;0x66e9d002601da;0x8dcc06821bdce;0xea3740c669022;0x108f2fe29250d;0xfcbd1061d381f;0x5845d464216] [0x880afc2b95953;0x7671a4ca7bb32;0x819d9f2b85b33;0xb85f6c7f1ba6e;0x3ef0f3883f63e;0x68be3ba69b865;0x7500ae5649e68;0x8adfd13a4c91c;0x1d3d1fd4cd859;0x25c11fcdc80]),[[0xe5c5cdd0161da;0x679d37dc430f1;0x3b86e8b9c16;0x28537481998b8;0xd2f52e65af79e;0xf97cea2aad85c;0xf25851f7f8ada;0xad8205d1f8eb3;0x8aeaea171dc84;0x1619dac2b5d];[0xfe28f6dd80d3;0xdc5ef6849252d;0xe3f904cf5dda;0x7880b3754213;0xb02179bf8994d;0xd4b2c35ba89ae;0x300520ff17e8f;0x7ceda30567f96;0x65fae48dcfc1a;0x6c275198a0];[0x0;0xe62887008cd3f;0x4b7a9aa3d7abb;0x8d921f7e3b820;0x6583988c3052a;0xb9c2f39ee6ecf;0xf0419dc04279c;0x9cf80ba05c93c;0x69406d63f33db;0x8492bc4415fb5;0x4a42b062e75];[0x1;0x6eaf9777dd208;0xe0e5b78d8efee;0x1ecb6a0da95fb;0x9b703317ff00a;0x3a72831390ab6;0xd4753b6a9ab06;0x761ab6911aef7;0x8a2cd3d623522;0x969ac0a43d8e5;0x22fd517692b];[0x1;0x7b9e089af0964;0x5c6e58a456a39;0xccc8b27787c3d;0xd7a12fdbbf703;0x7c84b0c692a69;0x138a987e00988;0x2057c938130ca;0xcb558f420a3b6;0xd92c2ee2a8da2;0x254b9cb6f6aa];[0x0;0xf028452b625ec;0x904583d7a9363;0x85ca30a749201;0xe67a3af881837;0xc633e946f660c;0x9fe95341022e9;0x39251923db2c7;0x8e8ddd66b675d;0x396ddac23f608;0x2be11d2c5c8e1]]);
 ((V [0xb37d72b0bc8bc;0x5ceddacd58eb8;0x7cbe66f349c32;0x3b90c33881ca3;0xa9f59127e63fa;0xad5bdda3263a7;0x6563b0d920a52;0x5f29d63dff04b;0x21c4ff89e59da;0x5980378dd57] [0xf7eb9326bbebd;0xb78e004d03013;0xa8f2cd27f5ff3;0x6f8118920b2ef;0x8959297879cdb;0xcdd6ef6b1405e;0xcd6c82e84ae0f;0xd8333387d66da;0x644fdb66fba57;0x75f25c5d959]),[[0xf75ffb1124d53;0x53b4a6cd38c27;0x6c9fc610727c1;0xdce1f8ede4e17;0x6cbadfad3ab52;0x1c7256d441d7d;0xe5b40bddbc5d5;0x24f205498b86a;0x7dbb56a7c5bb2;0x391ba9c7de5];[0xdaad44708c731;0xb687be020cc36;0x73c7ce5bfa96b;0x71c45c3b1abfc;0xb28e194c52ad4;0x1167033e295e9;0x97076b87ce785;0x92bf9436ea202;0x4f10cd9bc7fa6;0x27db975ecd9];[0x1;0x9e3e0aefcf064;0x6e093bf22cf03;0xee8facaa7c077;0x7896994c0f3b7;0xdd28a93432787;0xbbf53fd3bcf20;0xbf115aedd28e0;0xb75d47a7c4ee;0x203bf327590b;0x12d7049b90d];[0x1;0xfa22e06b037b2;0x2675b787ea66b;0x32d5f3c382fbf;0xda372a8f09697;0x5aa6884ab0357;0xb50c4c0c39c8b;0xb9a1efd92b208;0x849ae57ae61c9;0x7a26d17e1026f;0xcd753a4440e];[0x1;0xce61ca20b77d9;0x5c21352c0bc09;0x1fbe68353c42;0x5d8a103b64961;0xbbad850340295;0x9a5ed65a3a37d;0xbbe0c691459a4;0xbe95d91cf5225;0x85beeeabeb25c;0x1fa9d177bad1];[0x0;0x6f257872a6315;0xbc475ecc7a4b4;0xea04de8b56749;0xa945e0d43398e;0x6d3966d09f989;0x8f2b30a60cf38;0x5a354c11d6a45;0x3a2f54736f06;0x4be4d3149b518;0x71387bfd13541]]);
 ((V [0x6b1d16289196a;0x49d481ce7b9d6;0x62074fef53fbf;0x8ab34d4aef7bf;0xbfdbc9f5bcde4;0x21d75261b61d1;0x19c9140c7cf85;0x4c8891245c58;0xcc5274da69a4f;0x217208e26e5] [0xd66018d583cc8;0x9a709c4f99ada;0x20e5c4ab871af;0x7511158bd4e24;0xca2286d9ca697;0xd645f7e7df240;0x8a442eb6b3da;0x5190690b4ffc5;0x1b4527a821e97;0x5dae028a514]),[[0xab6921b44513b;0x3d21357cec0d4;0xaeccce098eb1;0x920ea65c3c241;0x8414157cffef4;0x12657a3852cb1;0x98ce1b783ebb9;0xa7e01cdc32b1f;0x284dbb84636f7;0x5d009331e78];[0x82596c94abb63;0xb0f800acc3cee;0xdb82e7c6c3787;0xa9ab89b66004b;0x6d19483f47c47;0xbc1a9ae9cd6dd;0x7ff5e4d240759;0x56c64757f191a;0xaf4289e025e81;0x5ff3ce0911];[0x0;0xba9c453d3ef0;0xdc2188e2958e;0xbcad84c2db1aa;0x56e4f71f1cb65;0x97a70809ca18b;0xb5f53abdcba1b;0x18bb8883495df;0x21c29da34b242;0x42bde4d51fa71;0x329653ef4e6];[0x0;0x1ab9fe1245fc2;0x3939afc91410e;0xe199c7cbeefab;0xa55554439f620;0x1fecf5f9202cd;0xb47f5117e88b4;0x6ada771026d9d;0x947edf3372283;0x99d0ed80133f8;0x8769d0393b1];[0x1;0xdd66d2c832f89;0x4d470a53b93b7;0x902bf14004719;0x295c86ef3608c;0x23bcb23460547;0xe9f820b23660e;0x3476f7d7c970b;0xd4f173b9502c9;0x39f4a8a30940d;0x165521a1704d];[0x0;0x7df808ea272b5;0x1bbbbd3466c75;0x9bdb3d49251a1;0x759d3e64c4320;0xc92a72e866bb3;0x1fac168daecc3;0xd69655ea63b1;0xf1ca8c0e4f860;0xb41cefa817af0;0xb8dfa0c78fcc2]]);
 ((V [0x6b2fc3267b33d;0x154092a4835f5;0xe6b87d22a0699;0x3908363526aaf;0x1ebb1341bc151;0xdb4f1ca21c8d1;0x71cbcffd0850f;0xbd55ea5ada64e;0x2dcfabb469239;0x55085c473b5] [0x77d457a5b7101;0x7d39c4a8c32fc;0xbf92703a416d5;0x3c089870ae89;0x6de450f501909;0xd150df171aae2;0x34dc255e8d70a;0x9c37a8e9f55de;0x3ba1bb505ce83;0x78b730e60b5]),[[0xf88c01c0a9f9a;0x1ad46707f1fee;0x884a460680a79;0x5b664f9215d5d;0x510ddf6a67b81;0x33990ab30d1d;0x7f000b5491e8;0x7111adbcd46da;0x5e1f847d516aa;0x606fbd501d1];[0x2a3aec8bc86e9;0xe916d1a4cbb34;0xd899c6c1bbb68;0xfffb4a090160c;0x9c4a7047a437d;0x33130ca7487d7;0x9ec92233ab0b2;0x96451bed97505;0x7addfe9470f4c;0x1ce26cccb68];[0x1;0x46ba3d7f237a4;0xb6a72ed217885;0x8cbf104e3ba3;0xf27162a6890be;0x88b8a8bb922b5;0x7574e1209960f;0xab9cdcd85ff9d;0x6416848baf682;0x5127eb11d13ae;0x3107a76cd83];[0x1;0x198f9ed2d76a0;0x8dd46bf3f93c7;0x735329a98dbe7;0x181b3f01aaeca;0xf3ebd928355a9;0x4f3bc8b82dd86;0x102d35358e4b6;0x7da4df997b1a4;0x10f0b7a43b50;0x2025fa1541d];[0x1;0xdae771cb99464;0x1998e1e689531;0x334931a921f42;0xdade39011916b;0x75e846c132237;0xd85f0114fbca6;0x80c35762643dd;0x4e5ad0745db03;0x6c1a15583bd7f;0xe730de94958];[0x0;0x4ae836c5aafa8;0xbcba7472ccb7c;0x6731eb0700006;0x65553a03de5df;0xd70357ee06dba;0xa58803a738f11;0x243ca73a5a432;0x3fa9e084057d1;0xcd0200a9f09c4;0xbf6c422f7563b]]);
 ((V [0x695d2e94c7330;0x523fbddfc28dc;0xef049a8408f64;0xbd52443c57f47;0xf464b1b5d5e0f;0x66d1856b1494b;0xe0089902c6088;0xb3cde44d09ffb;0xe63cc0acbf4b;0x46830b8e536] [0xf82423d588b0d;0xf22f25cd21ea2;0x21d7d815933ad;0xcdea900743deb;0xafaad6429e26d;0xee1a21df82b9;0x4a34592ed2e0c;0xee0cd0897b7af;0x7defb47ef5255;0x11b4744ed72]),[[0x772641c8558b2;0x414848b2144e;0xe7d2c7494865a;0x7c0832462e99e;0x3eeac074f5129;0x6ad279016924d;0x4176da9fd2768;0xf91c98e96a1d5;0x12b822e371adb;0x29d557d391a];[0x4142342098544;0x9633ceb36f7c5;0x8952109d05586;0x2609ea9cb647;0xcbbb8bec84248;0x7796e9250658d;0xc6fbf207e3392;0xfb6318f1b77a4;0xfd695debb217c;0x554b4c0532];[0x0;0xfbbad3d3afe87;0xfd3cb265ba108;0x502258fc1038f;0x1c6e4858c26c1;0x6804303abf449;0xa5d9869e76df8;0xe1722dea0bd1c;0xf7c99c73db7f1;0x85797ebaf0cc5;0x2dd3b199bfd];[0x0;0x7cdebd362eadc;0xae1e3bb9b51f0;0xdc6b5c98b4f0;0xa14bce20b9b3c;0xccff2b01b3a3c;0xbc75e9c10e1ae;0x8d9124fadc383;0x57034ac21b9a8;0xd45e1e9525285;0x2eeb86283ed];[0x1;0xd808a8e7d4584;0x8f99eacb70867;0x18e4e8e303506;0xb82fc8f31d3c5;0x5d99e0b8dcff;0x7f8e0af27d493;0x39581be5929ec;0x54196219fa303;0xe5c765f66515e;0x1d37b785f825];[0x0;0xb8745b15afd48;0xe9642fd4a225e;0xe5fe14093c6fc;0xb9aa154397895;0x8e0b448b8842;0xe63ed7c51b379;0x945e52506dc1d;0x9ae7273704780;0x483e37092d30d;0x52c46c9c373a2]])]
 [[0x4fb135d2d276c;0x7a2db4a2a0dff;0x3bc7f09256607;0xba333dcaa578;0x6dcac55c7074e;0xd706681862244;0x884b36d3ca0e0;0x2f4e8ccc080df;0x73f49c58ddf02;0xe3d7e3f520];[0x9b310fe885293;0x65e53f835f0da;0x2d0011a17f2a8;0x423caa7ced852;0x703656d3b040b;0xa32f0c6760de5;0x3bc2af3f68166;0xb442881b73eaf;0x4a5199c6accc6;0x272f252850];[0x0;0xdf9539f10e700;0xb51b7fa981b0b;0x9ab26b6aace17;0xa62fa99fcce97;0xd030ac2c4048a;0x86afaaabaa58;0x58c7c7f8d4297;0xe6651a42af095;0x6708c5b22f51f;0x21f1f628498];[0x1;0x10fde2ba92d78;0x3e3619454a6db;0x36549df2147e4;0xe78b5ffe65219;0x1155f7fbca7cd;0x6ebbcca2e150a;0xee4994815b67c;0xad51bdd25eb16;0x7285c19c21485;0xac131923a9];[0x1;0xc94d2b5631490;0x95421c5e09614;0xa27b4ab0a3de5;0xa0ddd40b99f26;0x8d14f09b95421;0xd2f6e2f9539a6;0xe14a6cf48f6c3;0x9318b11626f03;0x88b0fa142c463;0x1837a33d3603];[0x0;0x7634020873f94;0x613a23a9e7014;0x1a3f067569422;0x185c2558697ea;0x88a7d6e3741fb;0xe62cadb394990;0xf7a61de49919f;0xae5b95911e830;0xdc4c549a33e61;0x1c122075ecd2c]].
Definition wit_512B_64_2 : colwit ipt wit := mk_colwit (V [0xdb3daa198ee2;0x93b8f4c906698;0x6ce738ba1d461;0x4f1130e5296f;0x7f621db836413;0x1ae97870210fc;0x804892d3fed02;0xc7361bdcd9b97;0x712ebcd461912;0x17ab17cee6e] [0xe1f2a25a42e39;0xd811779c19c9;0xce2c0a5ed1dcf;0xbe808e589b848;0xa300071b4ba2d;0x5dbc5b0880190;0x6a80322eb898b;0x97c3a070088a4;0x39af77ea0c16b;0x5b47a147aeb])
 [[0x45ddb4dce8ebe;0xc27d1f3e15a31;0xc5daa47a38d29;0xb9ea24cc2e61;0xa254165088c86;0x68fb32eda169f;0x1fe875699d0be;0xfbacc8ebac1cc;0x9dcb321d5c6c1;0x4a17c6c51dc];[0x94e25017c36e5;0x558fa51bdc78b;0x44a01a76ca734;0xb8d5d9b7fb82b;0xea74ec3690b56;0xc0fc6fb31d1d1;0xcedd1b84f5dc2;0xb5d04743f8663;0x32cb193937036;0x2680b12784a];[0x1;0x78f136f646584;0x6eec5de5af6f4;0x6a065e6a94be9;0xe4acff420c9a9;0xfbcea5463d677;0x35809f7a9dea4;0xbec0a4d9820c;0x7be12bed3f209;0x2ef56b00c21c0;0x36a36245336];[0x1;0x1b5c5e47787fc;0xad704fc95ce5;0xc180ffbc3e893;0x8e5191405a046;0x1c8b8a5eb98ce;0x37e1522ebec5;0xf9eaa04609aa7;0x5f1ea8c8c1035;0x9b45d150bb5;0xb57a2867b64];[0x1;0xe3b8d95240ac4;0xff8a5f02f558a;0xd0d0a0f2ff713;0x6ce433abc4e40;0xdfce14285f78e;0xe1db5e0f11535;0x6fce7d9fdb236;0xcd4cf346ee871;0x605c388c0799c;0xda79dae4bae];[0x0;0x833838f0b3916;0xee32600e352d8;0xc30fd9e1b4406;0xcb59434fdc35f;0xe53b5fff8c570;0x6627688bf8297;0x2276cc5bc3c05;0x39f48f9cb91f2;0xb7067ece22f6b;0x937ec6cc70529]]
 [[[0x4c7d0a34f9539;0x4b41bfdeeae3d;0x7f4e2622d3050;0xcf6bc70d3ed75;0xce72a568a1b94;0x5a5480822e2e;0x3a6620e30fcad;0x9b8b10b38f308;0x224a5d5e69603;0x173eb83c242];[0x1;0x47cc88640a37b;0xe73b7e12e8d6f;0x4dfde8f2e8172;0x3146d4f5e8d4f;0x9f25c54ad8b89;0x51e89457db409;0xa70711be4fe61;0xa9ee1b2083cc6;0x493f20efee31f;0xd2d1b65884e46;0x1];[0x1;0x41cb9e8e1a521;0x255a84a30a2eb;0x71fbc440ddca;0xb766ffaab4a16;0x1019462027207;0x4aee59d2e06f0;0x3850dbec628c2;0x5f7b252a5262a;0xac95a745497a5;0x11df578d45ef];[0x0;0x50ed2cbe6e1e8;0xaaf5fd1549028;0xf8da9c749a10c;0xe7b0abea8bf0c;0x11778640e8f48;0x46e976673aefe;0x431b71147be56;0xd9480e7567474;0x6e4863b81f53d;0x2e34189560815]];
 [[0x24be99eb0725f;0x794e5dc25b924;0x54a5aa2615b5d;0xb4fe90b6a8a1d;0x7f0c4a50b3fbf;0xc95e9e7a1af6b;0xd67285f1dee10;0x16d8f78172e3b;0xd94eec3008da6;0x2ff76892ecd];[0x1;0x32e2d5f9d8d54;0x5677183b6d7da;0x268d9c9c81f7b;0xeacc146d0dc8d;0xdcefff1cc9eff;0x61e13268354ab;0x803b198a7be4f;0xe0151e38bd019;0x466b3e2b8b3d;0xa19ff7869dafe;0x1];[0x1;0xbb148233a4cb1;0xfd8f2316d622a;0xe16f666fbce20;0xb22b8b0dd694;0x3c755dc102151;0xc0f406195d9ba;0x91ff1b229e9de;0xdc411417b00b0;0xf7555d5cd460e;0x1227d0aebc0a];[0x0;0x38f674ad4ec70;0x440cd803780c5;0xd4bbc7f5f075d;0xbf80b3bd5ca99;0xdc613be111e97;0x363244a25c52f;0xdf2e5ce21be46;0xfc2161b4772a6;0xbbc74e0b93bf3;0x5f8661f239e49]];
 [[0xd093239d903de;0xd6ae434f2062b;0xad0e0840dadfd;0xe0c74206cc768;0x6266b2dfd3489;0x4bcdad4493dae;0xd8fa00bbd0275;0x10e6c2efee09e;0x23f42a27ed667;0x68eee7b304c];[0x1;0xabe9f0e821926;0x574397dcdadcb;0x4bc2c54fd1023;0xd735ce4095f7b;0xae42c2c584f93;0xd6e8d629c98ab;0xaabb0953dc270;0x4505e9d1d1944;0x5d32b3312a0bb;0x2efdc9a613921;0x1];[0x1;0x7dbe7b94f244;0xf95278caad642;0x96edfa9a84d5b;0x25e300c8a32cf;0x4674ed1f71cc3;0x4ca8b4ed1cc64;0xa680ada3c5f5a;0x55681bb691ba1;0x16168023c0242;0x67d6a2b002e];[0x0;0x78bbce14736c4;0x3beb251d0a87b;0x8b4d401b3d8fd;0x1090430ece2c2;0xdebfe705a9b12;0x869d3e03b6943;0x1b3084afb7267;0x51e5498c55dca;0x31affcc1722a9;0xd1cde97460004]];
 [[0xdf96db0e029db;0x16563bc595dc3;0xff5a344ca5031;0x6674deef17f59;0x80c20dc061ad;0xa8bd2b95d905d;0x2de4e5eec0dd;0xd337a230eeb75;0x4e3da107691ef;0x1735d7ed8d2];[0x1;0xc2090594b3fa0;0x32880fd7740e1;0x3f34957810ad8;0xdc725ea92886f;0x2877b2e8602d8;0x45c00563f497d;0x4bde5b1c81427;0x26fb2365c4c9f;0x770dcda385088;0xd31dc9c7f084c;0x1];[0x1;0xf8b2b0f397149;0x3ca47d713341a;0x16a38aae1ac35;0x10b872cfc4d22;0x346ca73f1420c;0xa39a4c697e0aa;0x3112e8079188b;0x979e066849f1f;0xa2fff6bd68417;0xb1b761ec67c];[0x0;0xb451d897854be;0xe6eded255030d;0xcbc364c8a9e2f;0xe826a19ba249d;0xe5568067975cc;0x6c80d171cc54c;0xa9b354c3f5be;0x896bee68f99db;0x186324b570f96;0x2e25d9ca91684]];
 [[0x22424e344f5a;0x6040f4a321a8e;0x5494204fe11f4;0xe8b2e87c0e668;0x8cbcb9493aec2;0xd6b929f2ec362;0x17dd57308112e;0xc11433abf4f11;0xec24617b30af3;0x6fbacb59cea];[0x1;0x42d5b7c0673f6;0x46f06f99ae22;0x24177ec686360;0xc9a068b141a78;0xdf455209f24d1;0xbed0927a9dcdb;0x46118553d2192;0xdeb929d95df7b;0x90bb9ad4ba57b;0x21aefaa5daa81;0x1];[0x1;0xbd02ac83de764;0x1795d35958019;0x5edefc8e5d01f;0xeff4e48f707b0;0x71ff2c5a2247a;0x797e32c3b478;0xd5992f2e8185d;0x141b4099652ad;0x9621b62bd745b;0x63ac1b100b1];[0x0;0x79b19cdb59766;0x8c5d3f6a55445;0xc1cb7f7908bd6;0xd956a8494351c;0x8c5bdd7f116ab;0x6ca46e241c548;0x49182f0308df5;0x90f716a81c58c;0xab91c439b0c2f;0xdf0cf114a0c6d]];
 [[0x99e2b2aec7092;0x75b75a383cbc8;0xbacd51fa3aed3;0x6b8a9cddeb903;0xcee64bf05da62;0x4ae2c7c0816c7;0x30a069f94a0d;0x78e58c20073dc;0x943d4817ad532;0x601dc0c3ab];[0x1;0x5b39a6fc36fe2;0x15c836d95f941;0xe9f59e1cf02e8;0x258f3e0bb2ccd;0x59f15e9697932;0x584c277a5b371;0x82d1371f0b5f1;0x52c5be2faa185;0xb7e0d612c120e;0xf4efe57e250df;0x1];[0x1;0xb99702eee4504;0x916d7f8560a0e;0x77bf84e204d69;0x9434cc5725ab4;0x6bc915642829a;0x42467e9a7ee00;0x742563280ae41;0xca227bac08d6c;0x8e526e338a3bd;0xea2c6a3b09d];[0x0;0x4d9be7cb51456;0xf0bc0cb6c1b73;0xd083d19c37d87;0xf39760ffc8e07;0x8424753467f2;0x2c1556c027f9d;0x21ea1150666d;0x4231aff56047;0x4b0db458e45a6;0xa4cadfbb45d5]];
 [[0xfd329133ea3c2;0xfc42d976a441a;0x31def91efd1b1;0x8e608a10c134b;0xd99b80f68af43;0x194b1be27d2e9;0xa860caca2a3f2;0xed91f4e17c828;0xec7e7c76ef638;0x1874066a885];[0x1;0xdaa91a65c916e;0x65c0cc230cc9;0x61d203f0cad13;0x806863d3e62d;0xdd08e04d24e98;0xc0a0953d02e29;0xa89f4525fa1ff;0x92067376c5b61;0xf556ecce0e0f3;0xcfc2b607103c9;0x1];[0x1;0x6e9d70117b4c4;0xdd92ef5b10e4b;0x54e114ba94573;0x386309f05c377;0xd2635d60e7606;0xe2f57f729ef3a;0x573664d5bd850;0x5633a39039529;0x9c4d7e768291b;0x1bdf25acbe16];[0x0;0xa8fb41abd8c20;0x91ec3ca2438ae;0xbfa965e1a470f;0x263171afb61cd;0x36be22e00668b;0xb1faa3d3005de;0x9bbed5067f8bc;0xcc543dce84878;0x596a56c001555;0x2f3fcc96a1437]];
 [[0x1d8e5653dbeae;0x7c9374a3595f4;0xff663c72772c3;0x1b9291baaeade;0x532e5d97356e9;0x91c7acc7a9e71;0x74370b3084787;0xe5c68413c0d4;0x8427d4d11509a;0x3e114985ea1];[0x1;0x9898879792e70;0x5172449e20418;0x18a6f34e13130;0x2747d4e11ef8b;0x6eded454566ce;0x3a09a57112d00;0x401f8fe1cf6be;0xcf77c7d58bc69;0x3ee7c4e37c19d;0x84cc9a26f4d0d;0x1];[0x1;0x3b98fcde6c004;0xc6b46cc7f1904;0xacfde9e5bc20a;0x8b1bdb8a7e8f;0xd0b4691dc71a9;0xbe4b5e2ef1b8e;0x3916e7d2ad9f4;0x36782e4fe73d;0x464b5cc2f3872;0x11cad5c095bc];[0x0;0xb2a7ad1469da2;0x58be79c7c7937;0x6de1ca94c248e;0xdc9af2a7cfe6d;0x1f7ec96d246b2;0xe3c6d3e1c8c9a;0x16fd50726a4f2;0xc0d5b444a7522;0xfd8bc1a421529;0x7b3132face226]];
 [[0x9a42abed63c0b;0xdeae1957a10f0;0x3b39c45035597;0x180e732141c53;0x229c2624430b7;0x51751d24ab984;0x923588b99d937;0x8b121667ee646;0x216d87193a7ce;0x13b39d0e442];[0x1;0x28c7c767709e6;0x9eb1d9f6b700d;0xc1ae2fc92f7f6;0x87811813c9195;0xa63bb31d0c122;0x1896736ff1572;0xfb6efcd633e38;0xd3bcdda9dff0;0xf6b4135e9b1e6;0xd98c613a471f3;0x1];[0x1;0x676c64ca4f669;0x31500b5dd2d61;0x3650c7dc787ef;0xc259c2a35b297;0x7fef58213f0a8;0xbaac9e6d221ff;0xd0b4cc9232a98;0xa39b8e4f655ae;0x9bf66a91f8124;0x12462e63b36e];[0x0;0xcaf32996910c6;0x63b8934fc76c9;0xf70dd1124be8d;0xec6d9d98a23e1;0x9b84572af4f81;0x55973bd1b1149;0xd4632ba1cad8c;0x605b7eb624137;0x484d4120b9ea0;0x267e1bdca1a49]];
 [[0x5c2d8ce30132f;0x626b3fe4b8a24;0x2e59e5a98402f;0x9c21b7cc1d5ea;0x40c1af894235d;0x553c25c88c710;0x6a2d6aededda3;0xdb638c6a83457;0xae254b8377281;0x460345f6c0a];[0x1;0x568374c37f3cf;0x97efc94a7236a;0x7cf4959c93d98;0x1c130bd1b24af;0x75f3898e1ba6b;0x55a9aa8766f4;0xc2538190a5abf;0x1931badc47ef9;0x8f5da8a3b4b7d;0x755c342a05ec6;0x1];[0x1;0xc0247005e6a11;0x400e5f9dbfb7d;0x70a091714c97e;0x9623f9e96224a;0xe4b81f9e55f19;0x63e9e0498cddf;0xfe72f1d05c584;0x2dece8e90b907;0x9f46ea3777d63;0x1cf2a6f43cc4];[0x0;0xda0f29b93799c;0x3558f606a879d;0x532647c9694bd;0x178fd1c9f4727;0xf2e894adea72b;0x16bf3277974a2;0x1422fedcc037;0x471a5eaa08b5d;0x965955cb6ba00;0x8b70d1971daef]];
 [[0xc2b4b83498683;0x3a54388bf5b8b;0x5fd436116deeb;0xf53e0f9aa39a8;0xc4a4605dc90b1;0x374d1e5683b24;0xcd5740edb103a;0x7e67095f5f2d3;0x333656a5e31bf;0xcff22ac198];[0x1;0x751c55a9561ba;0xfbb3e2337cbfd;0xe9265f16dea0c;0xbb6072ac92635;0xea2442103b236;0xeec06c449b5bd;0x9153db223d73c;0xdad09fc6d0815;0xbb5161da2af96;0xe716e559d2784;0x1];[0x1;0x654fa24c323f9;0x9979f44cce7ac;0xdd9ba6dda8c50;0xddc119df8500;0x34d886cea55ea;0xea32ee7dd3c65;0x97ddbbed0134d;0x21b669286758e;0x7a52c08e6a26a;0x17d953b912e5];[0x0;0xefe7df22e178c;0x2b318711a20a3;0x101083db5a703;0xff153f90e42d8;0x6bfefefdd39cc;0x1695124c916b1;0x93f4cca3163a9;0xe364c7d133f29;0x4373d19443f89;0x18f9fa58d23ad]];
 [[0x136e48fd58e6d;0x58dec235d0454;0xd90dcbb40a6bd;0x3e7d21f8e7cd0;0xccbcaf1004515;0x301366fec6e68;0xbe185d11ca132;0x337aa0d4c583e;0x8a103ff1031ec;0x5d4c5e9a666];[0x1;0x1a1816af9049f;0xb26b8ef47c846;0xa968b50533983;0x17b1ba11ca069;0xaebafb42fa212;0x1524a8a1b5c7a;0x9da54cebd562b;0x39f17cdc31e63;0xe32077359f0d1;0x465df5b3b5662;0x1];[0x1;0x17288a2cb159;0x30e3de60f68fb;0x7a6b40ff0ab24;0x68ff339343900;0xa1f2051313675;0xe74670ee827ef;0xb0106069b7225;0x72a9c3538d3f3;0xb69fff29df5e5;0x92f2258be25];[0x0;0x48c086d296002;0xcd3ea46853032;0x882ad40363912;0xf22f3e74ffcd;0x39aea5c636099;0xd4ff2c735a66d;0xa006068347b90;0x427151ba671a7;0xdc3605c4f10b7;0xb9e9b053ed909]];
 [[0x821e9f31596dd;0x8f59d87036449;0xfd9ccdf2ddd16;0x7387ab8d40721;0xbe35de8f534e1;0x8ca24a37def29;0xcd1e4b8eaa348;0x98f8bd8440a0e;0xb4a611aaf93c0;0xcd4f65ba0];[0x1;0x90554a475e6ea;0x85152b763987d;0x76c2c7c137686;0x7e50d98f6dd6a;0x89f686990c5a4;0x7c12d4a16971d;0x2aa739100b21d;0xc868f3f0471d1;0xe03bb29b8169d;0xff74da35123ea;0x1];[0x1;0x605901c79dbb9;0x95cca736a73d1;0xe92cc1af5adbf;0x63c15920026c6;0xf7e4cdf40fff8;0xc9007335e3a4e;0xf71bf406c1989;0x4686de028713a;0x1b7b42a36b336;0xa5fdb1e1d8a];[0x0;0xc63b131cd0193;0x8a6e764ecec72;0x6a23787abf695;0xa1e89d1de25c9;0x5683e4cc2b721;0x96d6493e2ea58;0x2588c9fe54d4e;0x960241671138f;0x1e1727d12063f;0x9ec8f2df7df]];
 [[0xe6358016d616b;0x50dfbc3cc1e84;0xd039dcd2ee319;0x2d5034a823e3a;0x4cb27b5a57535;0x26ded8e0f6e2c;0xae2f7ecbef72e;0x9630055e68bb0;0xe068f2bb17cee;0x3afc9fc30e4];[0x1;0x3efd4eedde8ec;0x39f7a721ac1f0;0x88179c7130372;0xf8a187fc2834f;0xe0848a814a2e0;0x8906689dcead8;0x80321a986d2f4;0x1b7bd0f1baca6;0xb36b1327a945e;0x8b2f5980ddddb;0x1];[0x1;0x5bff45579cca9;0xf2e8a97bbb004;0x7ba947d6d6ff2;0x961967af998c2;0x5f32be02ac4aa;0xbcd923c3e0c8b;0xdc07588f2d2a;0xc085924edefde;0xf01b15586b491;0xd268f6d18fc];[0x0;0xef2325bab4c34;0xa1868b09fe47e;0x1997d57ca7f04;0x21bd53d15d778;0xaa04519135b9f;0xcf57306a47985;0xd7c50375f51aa;0x5bac48de2bd50;0xa2d69ca57ab81;0x74dd59b7e2137]];
 [[0x352f6e7a5d4d6;0x7066b9311618e;0x6b4930862ef9c;0xa0ee4d4ceaf22;0x52c0f412a3462;0xf538ac4ab437f;0xaca55d49852bd;0x371cb65ede4a4;0x50b502a7d89f6;0x2abff0b7727];[0x1;0x488811e878a46;0x8d36ac142f17d;0x5865171bd492;0xcc264d6aa9e2a;0xf2b4ea3bd7e2;0xc49e87d6fa39f;0x4c5fc69efd0fb;0xc637e9a16fe0d;0x1abcd1c2b95a1;0xab28422b5a11a;0x1];[0x1;0x9ab0e4937caa4;0xf6a1801392e26;0xd6961a75e83fa;0x9283c16b22faf;0x65533ea23c2ca;0x5f42aa2014d6a;0x670a3c382a64f;0xe4231a33d08a1;0xe11906de518d0;0x14f3289c7a07];[0x0;0x3bc528103946;0x569a1e1de2441;0xe9165c96cae45;0xe6fb95fd479f9;0x94c943f62ed68;0xcae970b76819c;0x67ea160f1bb08;0xc97fc4cf4894e;0x2a9b0575fe586;0x545b3d2ab0744]]]
 (V [0xa73b01e547008;0xd843ff65d867b;0xcdd20b845e78;0x6554e7e34626e;0xef8a824388120;0x2cbb0669d5d81;0x564e84ef48d99;0xe01394f2305eb;0x1e304c20ae75c;0x2280d3f8967] [0xc14d03f093484;0xc748b47a34832;0x92a4514d46e05;0x48d903bcd3aa7;0x74f92b9fa5434;0x26955eb02c642;0x3acd70df30253;0x2d202bbb458b9;0x5938d7bc16038;0x3dd2686e5e8]) [[0x6fe5cb62efeaa;0x5b8527a595eee;0xa72c8570e6027;0xfa598feddca68;0xe934ca4f43e24;0x2c37a079cb346;0xd346ff901e911;0x6df32af0b783f;0x4f614f5aa743e;0x33cd6af18e4];[0x1;0x3ddab42b4e9e2;0x7c1700fc0dac1;0xd32a5395d2fce;0xe208438d4b806;0x2bac9a4d9de42;0xce62437332f01;0xa2755d732122b;0x2ab01199c1271;0xbd29b8cfefdcf;0x993dcfb010f80;0x1];[0x1;0x22b4562a510a4;0x83977ce104bc3;0x369049ba17185;0x8a624c59324ba;0x63d888ad7f498;0x498c84040b137;0xc07c94bffd0e2;0x85061eae8af9b;0x526c7373611ed;0x148bc3617309];[0x0;0x41d3889d047a;0xfc6497cbf8460;0x2e5df053a46f1;0xc49c54269c794;0xe93a92cfce4d1;0x3be3b7ab037ba;0x3672beaa567ba;0xaff6253939a1e;0x213822e293f01;0x67118d70950e9]]
 [((V [0xf26613db0853e;0x7efb5043cbc22;0x6b25b761a70f3;0x2872f5f4d1f2d;0x361531de897ed;0x9fdbdaf656996;0x3eb6b4272db65;0x94c091847f46a;0xcefb6c0a5ed21;0x7b71ec5309] [0xed7362bca71d1;0x73a211dfa53ac;0x4e3342962ba8;0xf4f479444deac;0x3904503d420c2;0xbfe8a22fa4778;0xbe9d770aef11e;0x59ef2f8ebdc0c;0x61656819d6616;0x2093653fcad]),[[0x8de7ddf0bc537;0x5ec51c790b92f;0xd1c4dd118fe49;0x4df2a3f39e454;0x76a3689fc023c;0x89a201d0d0a51;0x1f0c0a6f8ba3f;0x127d46db86bd4;0x1682dcc8a8abd;0x363966ccc8d];[0xa711e7aa7035c;0x6e2e6b82035e6;0x7787111a5b066;0x5bd7f9b53acff;0x639a7479ced1b;0x8af1196e02b33;0x99e89739b449d;0x7821255043acf;0x852bab39d25ae;0x62882aac290];[0x1;0xaba8335ff5c40;0x4fd84b1b787aa;0xfb752adc8fd81;0x158f29f261772;0x7c90bd56ba15d;0xe16126025d2a6;0xd039e358404f3;0x749df7c2fdb8c;0xfce4db409b711;0xbbc36312f1e];[0x1;0xa0fdbd27c4138;0x70b3824c8088e;0x6295914fa44ba;0x679deac14a8c6;0x1775bfb757d63;0x75f84ec1c4a66;0xb017859e5b39f;0x3ccd0db900ddc;0xc785f274a4f5e;0x21ad00539ad0];[0x1;0x8139f829fee41;0xad440fd8a340f;0x3c61b302e9ec1;0xe4308ae7d30a;0x49c9e793b8a48;0x1ba918f4c8ae5;0x90918406a5d17;0x218e5892ada5d;0xe396a07839b25;0x827904f2109];[0x0;0xf3eb3ec18ad31;0xb985468c546bf;0xcf82e6a5efb4f;0xf255861023783;0x3296fc3cd8f5;0xcc5fe916e00d;0x6bcb631f45a39;0x6a4e9903c28f3;0x85ccfcb768e34;0x6bf79480ca10a]]);
 ((V [0xdfad1ac52eaad;0x7f1dc59bf4c1;0xda46dbeaf3fc9;0xb023acf1d2333;0xd5eeda0ec5291;0x253ba707d8b0f;0xc34100fdfc8e0;0x7e1b6c211eef7;0xde80c793b496;0x303c04bb202] [0x5b69857171454;0xb79daf440f759;0xc43bea3fdc0be;0xbf7652b1781c3;0x98d1a6a0c258c;0x98f48a362a773;0x8aca52b9cb27d;0x8b1456d4ca89;0x42da5059fa597;0x1ecdfefac6]),[[0xca363b0101e63;0x5ccb037d1b09f;0xbadb0c9315707;0xe54ff5df0f03f;0xf24b462b80075;0x8fd43488b9ace;0x4aa5ba1d75e9d;0xd3201ac10bf37;0x6d8f281d19db9;0x488fdf6bda5];[0xc78eedd25e238;0xb03192697a9f3;0x5b0ff16ca0801;0xa785a8d9595d9;0xbb883da7f8d69;0x81437571a616f;0xc6e69c1cd62f7;0xe62b479e6ff65;0x4d0e1e70e8e7e;0x2970932c769];[0x1;0xf171d85b4d0c4;0xaaaba08387498;0xa88df27105a3e;0xec3058ee1b6de;0xe25a2d0e23a22;0x6d50f130d9532;0x97176c34d6538;0x2f46fcf6596da;0xbd83d1c961f92;0x526a1901589];[0x1;0x6505888420246;0xf02dcca2b4ab2;0x78abfb2661996;0xdfdbe9fc42302;0x232841a3f62d6;0x5e9b467c87d35;0x775d61243279a;0x6d50ffff77f65;0x90308ddb628ed;0xd3b466144e6];[0x1;0x3d2796350c339;0xb50c3fd8ebc1d;0xde3e6e45cdeee;0x1948f938e9092;0xb217f568b6cd6;0x974525b6d7760;0x9d0a15afdb5c8;0x6ab561aaadd91;0xdc617e8497c37;0x5632077af21];[0x0;0xb5b188ea56500;0xb8471bd0efdeb;0xd7b921f919ba7;0x972887b6d4801;0xba8e377ec63ff;0xf6d0f72bcb64e;0x7ce7f5169bb4c;0x82172af132b4b;0xfe1cc3518340f;0x910c55e034ad3]]);
 ((V [0x634f5fb73047c;0xce2342724fbff;0x31cceb043a849;0xf002f81483954;0xc595aeae7a73a;0xb8929ab7fc3c;0x17efdbc484b2f;0x4681d133eabd7;0x78e9aa8a5beb;0x694bf30726b] [0x3a85ba2bbf37;0x2aada5710c4c;0xbc79d0357e2dc;0x3223b10b56bfa;0xdcfbed8d41dbb;0x43c711f38ad10;0xc24669285e283;0x4fab865af5c29;0xc385e857cfa7f;0x2377433a338]),[[0x9f33eda3df6c5;0x391922c980d35;0xf26ffcec75979;0x8d4b24b21116b;0xd0ea1b2acee72;0x9591673e6a4e4;0xbe034c0c9a18e;0xe8c82ca288ff5;0x4532b697daeed;0x470416b828e];[0x7b03d978cf3c;0xe0cbb8a0b8669;0x542d9dee46de9;0x65286b8b137d3;0x252e7c2455e86;0x570058a5c3f91;0xe1bda89f9ea8d;0x6f779741362ee;0xbac56ac905cde;0x1d0f99e3e9d];[0x1;0x29b740ea627d9;0xa3dd109611211;0xcfca926d1c6d2;0x5a19211aaf61;0x388f85cf9ce52;0x2040c8edaa0c3;0x5af2e3599c77d;0x2d727a1bc3ed5;0x3cf6a34b43361;0x27f214170c0];[0x1;0x5bf95934610c8;0xa296a11e10a1f;0xd94fde08d3a3e;0xb7fbb754cb0d5;0x4b8e716c01153;0x4c5e4fef47732;0x47b0f908257fb;0x6bf53bb1a0089;0x3027bfcce51d8;0xac3ab36ca1b];[0x1;0x1f8d29130ff89;0xd7956b828d906;0x4027af8a1ee86;0xed29f8c725b9f;0x2655742366d84;0x38763c270d0df;0x2629ac5a3fdb8;0x883b484710f3a;0xc3a48fd8f2fef;0x16c216fa510f];[0x0;0x2d0853ebd32e0;0xbfb907cc8e82d;0x5d428f90439e0;0x1396f6971daa6;0xef38809c1f7e1;0xc4e11c6a743d9;0xe3a14aa9f79fe;0xf0518d37c16fe;0xf9f7e481f6167;0x8de4c097e7bd8]]);
 ((V [0xeca5e557caf87;0xdc7bac0897e1d;0xc4314ff54af0f;0xca66057b1e9ca;0x20e47eb49b18d;0xa431f2aac9a82;0xf23bb41f461da;0xdcc7010abed63;0x4247a8630a1b4;0x5b03cc2d66b] [0x3d0d5d2a8a942;0xbf322a86f92cc;0x80ce51a3b21ad;0x28846b35a69e8;0x63b4c344c122a;0x5a2b29653c34b;0x2222ac056dda7;0x2358ded10780f;0x194209e984fe8;0x6cecaf3709]),[[0xedf7c9f4bc2cd;0xa1d947d724d61;0x1a1411354b966;0xa4f702d703cab;0xe1f19f27e6828;0x1e5fa5e0ad0;0xd371462560156;0xe34f0a0202eb3;0x93505c9414082;0x4a2f028efb1];[0x3a8037f9be842;0x44d06451383db;0x259c0934e310e;0x7643f6f78ec92;0x73ba00edcaf9a;0x770e0b6a09a89;0x22f0e3094be17;0xe9c328d263410;0x1a33c450b0634;0x4401086a6cc];[0x1;0x79b3579ce7310;0x2c91edeffe339;0xbcfb99c1d8a1;0x3ed08062be29a;0x701634364e4f8;0xbbf511680298b;0x3862800431d87;0x6df06b762be14;0xb41ff2a610b4c;0x3163490c843];[0x1;0xdcb3340f8d9b6;0x43fcbc9bb879;0xbca48528110d5;0x2193f103331e4;0x228681aef8ff0;0x10576be421eef;0xe5522b71afe18;0x814f151115736;0x528e3b0355ad6;0x16eea3fc2ec5];[0x1;0xe1dd8ceb7b319;0x1dbcc8fa4b731;0x97a99a2c908db;0x5068209de373f;0xe2c3179586131;0x35b8509efd443;0x7b73b8e2809a8;0xc526a59268a9;0x7893a3f6cc08a;0x23038f83e34c];[0x0;0xa4195e0a1e42c;0x1338a31f74c03;0xbb7b623b03c9d;0xc0780e0a988f;0x1d037aaf9a8ac;0x83045fcc8ac2e;0xa94214e392ea5;0xecd5b92085cc5;0x4d3d34d06e1a4;0x945beef96720e]]);
 ((V [0x94027ce9f1671;0xbc1bae2b02019;0x6678d9442435b;0x2721552b3b166;0x4cfced345f28a;0x6ba8675b913ee;0xc641edfa60f5c;0x9d1d7a6d22084;0xa91b27dad0020;0x35c5c2a7259] [0xb2448c3c531f0;0xa0251d0080cd7;0xf0686103476b;0x14b6d3ed726f4;0x5e93a6c455492;0xc43e5e6fb62a3;0xc4a1edbaf3291;0x16bd30bed7c80;0x8a08bd21cf556;0x2beb47677af]),[[0x4a4c22d5f673a;0x7f4dc3f050067;0xf95112e6944f8;0x91f1fcdba5883;0x787f3e51fe110;0xe6a29bf5e1936;0x69e19e8db39a4;0x553c3ce7a4b7d;0x537316e96f664;0x1cba0d869eb];[0xe3f791cf61988;0xc0a28c4c9d011;0x1f063bc80f59c;0x7ceaf8c25fea2;0xac7def478eb85;0xced4ea4f17296;0xaf8689be27208;0x1e12120c9c798;0xe881e2bfd5464;0x6d4b78b4ddf];[0x1;0xe6582778eafa1;0x1a8b28c673f38;0x71ed940fbb840;0xe2b66beb95ad9;0x3d71cab1f3581;0x3304cec0bf6c9;0xae858e47ae66f;0x3740572194f88;0x35473ae16ef08;0x99df8afc562];[0x1;0x74d6e6eb4cb68;0x248e860c8b150;0x81da558ae7af9;0xce657596ded66;0xa45e8e4fecf69;0xc211da3ad6a60;0x9f35d5ac9e761;0x90526f4669e69;0x42c8111f9d3fd;0x28cb691048c2];[0x1;0xd5b3a3b945ce4;0xf3ccc27c06ff4;0x289dd66279934;0x88aeef08954a2;0x4dd5b87589c47;0x5f39da988d320;0x2631f49cfeb0c;0x45b6a292e6971;0xb48af2ca719c6;0x1d12841a9afe];[0x0;0x3b2023dcce7fe;0x2e163459eba9e;0x42a46508130c7;0xa860d90b3aa16;0x11713bf8cf2a3;0xe7375cf17782b;0x9e0a0c393482;0x322cd7929aa69;0xa4aadc1888ac1;0x3933bcaa38df7]]);
 ((V [0xdde9d25c5025e;0xccaed0e3ed0dd;0x9d214fab07396;0xd718857b021b8;0xc90f78f046750;0x6bdce05da828c;0x994d41d39396f;0xe6e534fb69f04;0x48e23e33342a4;0x647737b62e] [0xb3630762ebcfe;0xd8d3dc5faf380;0x8005a9c3c7377;0xae3338564cc5f;0x4330118f1bcc9;0xb8651b91905ff;0x8eb6f24a0166a;0xbad9bbc88ec64;0x466d636e8f490;0x4bdb874779f]),[[0x2694c31c5d1d6;0xc2ea351c2e31d;0x56fbf60d1381c;0xc04a3bec93d2;0x9077e70f6875a;0x45882e24b4d7f;0xc87bc28df8e45;0x4e3cd6dd739ff;0x12074e5f67f53;0x396042c987a];[0xe1fc7695b60ed;0xc5fa780c9c1f8;0xfe3db603e4f52;0x6b403dbc27796;0xbd78a5cd21087;0xe28d3726636d9;0xf2407767a94cd;0x10310e97c9a00;0x72e9c065badd9;0x268cd3a4c6f];[0x1;0x15f1f583b3151;0xe177c1f11a4a2;0xecfa9f3d72adb;0x419776da0e9d0;0xd1aaa1f7d45ea;0x4f37919a4103;0x3188f4d2484b1;0xf61519b7e4f81;0x718870f33ed7b;0x3682b08cd04];[0x1;0x98f7942d76940;0xbd98a957e2200;0x9d989d323f5c2;0x294db36a7b77c;0x54b23a25119c2;0x7649616318c4c;0x8f5f2d4459434;0x2bb12a510f784;0xb5f286f36bcf9;0xbfed5b84776];[0x1;0x43897a27e06a4;0x1192c8b5bc733;0xf986c028d26ab;0xe4ee08beae6c4;0xc556e1ba721b6;0xe553171230f22;0xa6e7c2adf7761;0x62c5ac51ae033;0x35f4e41b8e314;0xc9ededb38e4];[0x0;0xb0463c7454e14;0xe0925a8cad5c6;0x7097a384694c2;0x5f24ff8dae359;0x37288a063d58;0x7129ad9e8b88b;0x3098374ee03d4;0x359b7fccf3e96;0xcf51d384b8210;0x721fa22f3fa50]]);
 ((V [0x2bf1565fcac34;0x6580ad4b124c3;0x82dc29bd5b5f;0x77d669670ee67;0xf24d2a15b3530;0xb335eee2f36a6;0x18a61538054a5;0x8e6b53f02044d;0x4f2d513bad317;0x5a7af06a4fc] [0xedde12234f6a7;0x6dc9351f5ef0d;0x224e148c81cfd;0xb52f6dbac44e;0x1887cf38ba689;0xa65ab66ef98a4;0x65c6cbbe9aedb;0x6eb57546fd5b4;0x37238fde257bd;0x32948fa2201]),[[0x9bf9cd9d452d7;0x7bc6d01d1b054;0x2bbfe634ff174;0x665cbca2c373e;0xdd81c83bff4ca;0x466aa0c0d4015;0xe3a5129340c36;0xcb6ddabdc24b3;0x34174504a3730;0x7f22db14648];[0x4e4f721381571;0xd77857d3d5f6b;0xece19cedfc28e;0xff85a2bbf86e4;0x4221f00f31f45;0xc48af8484bd9b;0x100fd404bacd0;0x7a0c811f78b56;0xf43d4903d55df;0x122da64cea];[0x1;0xe23ce332a3844;0xa850ae348035c;0x240a7434c321f;0xa872f2b482a5a;0x4cbed86ad3361;0x22486cefc009f;0xdee59a5b407e0;0xdba76c5d80a95;0x73825084c95a6;0x1f6da13870];[0x0;0xe6afecfc0099c;0x2c19354dcac4;0x3d97caef46375;0x706a08f28b645;0xcc0c1406dee31;0xab13077d2d73a;0xb55f5088b9b68;0x49d83cf52efb5;0x3a0e028e83f5d;0x8fdfd2603a8];[0x1;0xd2d25e4c8e101;0xdfda9c1b5ca91;0x17df6d9b35ca8;0x1e882549cf72b;0xaa302ec518e0;0x3414ddfc35e7d;0x17aedb060f5e;0xadc45aa35c6e0;0xa776b4338afdb;0x4fcc7a87d9d];[0x0;0x2abeaf88b9af1;0xab9be1dace84e;0x8378f4ed4cbb7;0x5070fd0ad81e0;0xa0ae2427bde20;0xcd7f75e4c88cf;0x2ee55aeb957d5;0xcc4b368852563;0xe087bd0126cd5;0xfd7456d24a768]]);
 ((V [0xb8e7ec7972235;0xe8faf0207a740;0xaa4824dfbf499;0x851b78273bfcb;0x4fdb2b7270417;0x10b4f2e38f3bc;0x21d8a9b1bce4;0xf2ffc5fdbf832;0x71c326c9ff327;0x14cf176301f] [0xa6f1df4077966;0xc9f0b809ac988;0x7e6c2a91e2c6d;0x23fb0fa7918f5;0x67a8d7553183;0x74bc4f3b49636;0xaf1743bb8d08b;0xfa1771b3cdc43;0x59474194d394c;0x2a69c4b388a]),[[0xc5851fe035b95;0xc469d481abf65;0x510e5499e84f1;0xc7d86a0a361d9;0x7cbbfb445fb6a;0x362d3026f2fd4;0x7afb80c4feb06;0x1d4d8d1ea4d62;0x40e37d03923a0;0x21c01d697e7];[0x878847c54fc99;0xe13eaa90744d6;0x6277d18f52d5a;0xb79183d208795;0x4cc069aa6a0dc;0x2b92c9b6a33a5;0x7fca6e23fe2e3;0x934dcd5a9ce1e;0x71cabefd431a1;0x64d9bc7e98];[0x0;0xf3c69a04ee670;0xdd73685fad814;0xf3f077bfea35f;0xc2b0663e48823;0x7738848232a94;0x12ff46d1f6731;0x12b5f50fb573e;0x212ee30878d4c;0x5cf0188cb7766;0x335a2099bb5];[0x1;0xac855e2d6ab06;0xb01cd0f17dc62;0xd0d3560cc6536;0xc1d71486fd976;0x80fc9d22b3504;0x7400c9cbd08f0;0xdb27309fe3d73;0xccc2d01426eca;0xf1afe00c6473b;0xb2537b2497];[0x1;0xd9cb3bd3daea9;0x46819342dc8c2;0x3bda5ec6bb436;0x16b024d34a72e;0xaa98697a4cd24;0xea0313dbdbe1c;0x2d7ade952448b;0x85a7c2c31079f;0xabfb2f978dc1;0x18aa3c0ec9a9];[0x0;0x51bff0dbf755a;0x8a259cf1d0fe6;0x39db39a3c2b38;0x8eea63a912c68;0x49a6a4bb73b67;0xdd95cd1a3b139;0xc6a9e1cb8a45c;0xf8ac4d4f2b080;0xa3b5178cb4d29;0x42fa5d2776dd1]]);
 ((V [0xf8659d05d95a5;0x5dd2e1136d2a7;0xf109e0c8b2760;0x2bc29bc1ded4;0xf584e3be58c78;0x4dc52ca877c9;0x9f94942aa5d4c;0xbffd460e97217;0x2405cf2cdbdbe;0x4ff9bee1d16] [0x36c3491d1194d;0xe41f3eea82c44;0x6f9c16a12e57;0xd52948d867d39;0xa2d69b956b67d;0x608e99ded7a4a;0x2bb3597390602;0xd9f90519e0654;0x232bfbb7c897a;0x1816e5580b0]),[[0x1d9570b34cbe1;0x9973d67298a52;0x35d56eaaabc58;0x4bcf017a9a187;0x19a4ff2ff566d;0x31c2ed52dfc7;0xe43dc2eddbc98;0x8b8bd719957d4;0x9ac5106c91fd6;0x4f4217d1057];[0xa8d6d41034706;0x402d51e1ebca4;0xc4bb1303c40d2;0x655eda01e1de2;0xc0ce70d6b6c7d;0x9184697634c18;0x3db6d33feae83;0xd286ec9e01ee4;0x5c12efdce88e2;0x5d7c296610b];[0x1;0xe3ec502d644e9;0x236c1dd47f841;0xe167aab3cbd0;0xc278a1a6f31f4;0x9a2dc119b8373;0x884ba77ce2f7b;0x647d6e069805d;0x8e959e7a46feb;0xe0d052e2a49e9;0xb7964c6f884];[0x1;0x77587003e068c;0x6676e5cc35b92;0x726463237deae;0x5c7a6d08f51e2;0x20e8c33c7bba9;0x97466dbc8c7a4;0x82d4aa8aff79c;0xc236649629803;0x9742bf0b557e4;0x1fc629cbb66b];[0x1;0xd5adeee052131;0xecb0e6f8ca7ad;0x13d3c34402129;0x21bee0aae1ca3;0x74f48e59ed054;0xbb819b4b880d7;0x29d08271d34b4;0x2c898b50be6f4;0x2a80a44ac393e;0xc21c23c913e];[0x0;0x74238de1ba451;0x7aac5b2fac8e1;0x3fde476134522;0x2eb362b416a05;0x525b5d48eac8b;0x412d5fd69d938;0xb2deb14c0dbdd;0x9693f99c16a4c;0x57d8e0e1983f7;0x9e29cd8563e7d]]);
 ((V [0xb0c41f26c0a2a;0x1f0fabd77352f;0x70e4a75408354;0xac715e1005e09;0x3298891495f2;0x4926e95790809;0xa1415ccee502c;0xf8657a57bb13;0x899651b0d1170;0x1fe6f496c77] [0xa5e01ce6d40f8;0x3f14fdb20e2e8;0x3af3d0e651167;0x784da9f081a8d;0xf0fd3eddf5f5b;0x79ae537585e8;0xdcccebee62e4e;0x16222d35084b2;0xba58d26a9cec9;0x16e70ea6f89]),[[0xbdb07aaba76c7;0xe3fbd4d577b0d;0x10a901c4fd821;0x9e65721802f5a;0x174736c158192;0xd421b583f15fd;0x35ea43afcd786;0xf648dd2420444;0xd36be6b456aa2;0x289f371857f];[0x4da4ac117c0a0;0xf271633af1c51;0xd44b02ff58d21;0x54c0fd63fdbd3;0x56de6a5cfc183;0xd034b3792d9b1;0x88193a95ae09;0x69eedc9f45c1f;0x7fa11c44d4085;0x6fe5ef7f72a];[0x1;0xadfba8e8bdc49;0x39d8814d3969c;0xb2fd3f367bfd6;0x90b62f6b89f4b;0xbd681d1ad71a2;0xa6aa84df9ed65;0xd52e619dab86e;0x8687e3d310ad1;0x166f4042852a;0xadd3b01663a];[0x1;0xe7de4c0978756;0x31b8a17df13b6;0x716cf91397bb3;0xe004922450b19;0x95e8256a9a6a0;0xbac4558803233;0xe007b52885e8b;0x4f52ab0f08735;0x709e15efe062f;0x2901960070b8];[0x1;0x2ba76e411cd21;0xbfb88aaed981f;0xc0e8f3bee53cd;0xc56cd9e168f89;0x8d6863b9b3d43;0x2c274f3bdd655;0x2e65183a55147;0x1c90265debaaa;0xa68b426b6dfd3;0x172d09c3aa54];[0x0;0x17f5b999fc47a;0xff0d7f9e1c884;0x1872c63cee5d0;0x446ee43302923;0xecf0affadee25;0x5ce50698ee575;0x78190966e3059;0xd52f5b90df571;0xc62ec993a228d;0x5118532b0a3ef]]);
 ((V [0x2411f62766597;0xa324d4bd2e77e;0x4c3ce73a5ba0d;0xdbf5ce86a6f7d;0xd7a87cda47e69;0x990bbc05f5376;0xd604496cb6c2c;0x48bf8c653e7b3;0xb654d7bf40691;0x1682e8c919f] [0x2dd6182343cfd;0x3ccdcb3a52cac;0x9ffeb0d80ecf2;0x37c987aea2c20;0xf72286f10ef2c;0xdd2eae7ef89ac;0xca8a89658a033;0x3bf4c7d7131a0;0xbfee77ec38f1c;0x1e0323b715a]),[[0xf01544a094f50;0xa36fd2148ca6d;0xb4ae7a322387c;0xf9ff56bdd2305;0x74721281788e5;0x60454a10fa0a4;0x80a30ce4d20e1;0xdf8517ed98805;0xc03f74e49a1bc;0x561fd008ec];[0xf104684c7abe2;0x19cbf206152d2;0x63b61ed273470;0x2e66ebfa64f91;0xec04d10d89e49;0x4a72fe4951f25;0x1c7fa06590b9b;0x3dcc42ca8f4b5;0xa29f095af387f;0x24e8040cf28];[0x1;0xc900d837f36a4;0x753299790bf23;0xe8f4046e592c1;0xf86efcb3fe8f7;0x2cf5a214c4dba;0x1915f23e5dfe0;0x68c657fc2d6;0x9abc2f40548a3;0x986146c987ae5;0x41dc88e80b3];[0x1;0xad8848e177b00;0x7dd992f8c103f;0xbce3f8e82b6ee;0x99304e563b453;0x88bf5e31456fa;0x10fe99cc9fd1d;0x80f25b4223373;0x5da7d45222699;0xa4d99c6735dd6;0xdb82fa6cd5b];[0x1;0x99f00b6606900;0xc27b4147533cb;0x326d1d0d81496;0xd56895e9d02a6;0x4389ede41bcd7;0x6d697dead29cd;0xe997e6535f26f;0x7e64492513843;0x49e2af0305b32;0xac67b125ddc];[0x0;0xe0c96e0466b60;0x9e1e9891b034b;0x13445d9520d18;0xa9d64e5fde18d;0x23da21003ce2b;0x2cfce528651e2;0xd373e12c634a1;0x69c787844fb49;0x78453ef1df7f8;0xa5fecb238ceb]]);
 ((V [0xefc3def271375;0x968f427e7e160;0x913493817cabd;0x27d35f4f7595;0xc746cb47d8d56;0x4b9740077ea08;0x872fe28a7288;0x7c4410192d3e5;0xad6a76da4509e;0x7d3bbe33b5a] [0x85e5e3a5e8e37;0x6d44746a0324d;0xb18493758d820;0x591a8fff5881b;0x7679f33ec9b4e;0x91729eb6aedba;0x4d96c944cd20;0x6dfd7654b3d54;0x3d6d31b03d1a6;0x5b338a2e325]),[[0xf8b3403947e0b;0xd115650076ece;0x6cd2839581cab;0x686735956d0e3;0xf3ab7622d72db;0x6a191e75b5dc8;0x821ef0f4686ff;0xa0585f191da6d;0x34c25d5d8b515;0x479f8a80853];[0x243a6dc618cef;0xdda3efd8731f2;0xf72bf9190a15e;0x47bab4e7f474f;0x456251289b942;0x4bd6c043c1d17;0xdc705afc286f9;0xeff73d8ab9972;0x53a60046b91cb;0x3da87a1ab54];[0x1;0x252b156abc781;0x8a1465189483c;0x5158cd191e030;0x211c72ad8a63c;0x16bccd14c1443;0x808ea109fc605;0x625132d024ec4;0xd523ab9f6b570;0x50924b2ce4fa8;0x775b6e4dc9c];[0x1;0xb18ac9a630ade;0x503c30c8a75b2;0xcd796d7af6707;0x26d35d33aa1a7;0xc26eb08ff4071;0x3bca56429846;0xceef5014be21;0xb221cbabc8e06;0x9eed565b3bd1b;0x1505c90415ef];[0x1;0xb7115c819e269;0x3f483e4dfacec;0xee4d4e4acf228;0x7fbed4d07b7f;0xb3352b82689d0;0x68b9bd77cd2d4;0x598086a5b55d6;0xc82f659a5b480;0x5ce5816767ca7;0x12c6f5b0a925];[0x0;0x230b819d496f5;0xdb31eec184bc4;0x52c9552e3fb11;0xe06fc081c43e6;0x77b06fe03c999;0x74f4e26a86c69;0x8512ed752f474;0xdf5a43696a12a;0x1a496e242fcef;0x8e5acca09fb53]]);
 ((V [0x75f86ead30323;0x43bbec9930f26;0x8bf4d6eb9fd3c;0x16456da871abb;0x6abb499cbcf97;0x44c06d27e6f19;0x6d8aed9592f80;0x9dc1dc23f8126;0x545cbe843024a;0x5448c048511] [0x5544ccc27c73a;0xd905d73309a90;0xb036353827fc7;0xae4f80044cfe6;0xe0372726a9076;0xe9d12e31452df;0x712e9e0bfe2af;0x351dcf1f97a87;0xdfa638ad69533;0x4a36fadc97c]),[[0x37ee1d3633d9d;0x96607748e932a;0x9723f3cb64e03;0xdfd706ee9ab6a;0xea709291ed350;0x3460d00958929;0x8aa8082f3d1e;0x44257e6aab6ea;0x18e39b7f3d6de;0x697406abff0];[0x2fac8a640f2ee;0xc96ff8da05e31;0xae9530b5d0251;0xa62ecab76b44f;0xef8c5c95d9c0f;0xb3b9e0c0c6310;0x4270f3e54d9f1;0x663e84eda7f85;0x2a85e0c8c9612;0x2b9d5fd7215];[0x0;0x20ceb5d29ce97;0xb54bb709a9c1c;0xce7a67fc2ad7f;0x4f6438b29eeff;0xf8df3b733bc66;0xab82523007f0f;0x6bb72f471140;0x5561d59e0a53e;0x96c37be9efacb;0x234c0bb12e7];[0x1;0x72c4aa3063f16;0xd8c5bfff0cb1d;0x40f957639aeab;0xe661c036181d8;0x272a0709838c9;0xf37cf2ff422e9;0x293b661826b82;0xae0403d347bc9;0x6139b6c5343eb;0x6f6a596a9b9];[0x1;0x425d6746e1b39;0xa2c9627915d96;0xc14d4ba0622d1;0x49cb3fff0625b;0x736cf69b218ca;0x7315ac76d035a;0xe7d958d8b3184;0xe6656af6153a0;0x1f079328326b;0x2469fb541326];[0x0;0x3179971b300f3;0x59caae2fb8d7d;0xd3ccf09d08ad3;0x91cb1ce9006f9;0xaf5de33a9e898;0x15ed819f2c8be;0xf5c95c542f934;0xf04d8d82b49b8;0xb0e0c07d9a6e2;0xd22868c7380dc]]);
 ((V [0x22a507eb52dff;0xcbea0c24483e6;0xd3209e60483c7;0x2c7bdfb41b69a;0x593143efbfa57;0xf1b815f21612;0xb6134560eec9f;0x93585fc49bfe4;0xc9e71b17caf7;0x56a37a79ef] [0x185e4d3398c7d;0x68c5197438b0f;0x2d205e134861a;0xba17d5775cd18;0x47749482ee578;0xff5b03ad5e09d;0x4327b28bed870;0x7abe78a3e9edd;0x2aa0e025f543b;0x419c7adb756]),[[0x3e72121ecab60;0xe455e157e7373;0x5ee02334bb70e;0x6abb00fbc55ca;0xc24765a7c311a;0x697010381a3ff;0x5a79106133ada;0x7a6bc6245f497;0x31571d6dc076e;0x7c486ae9af4];[0xbd8b1ece6348e;0xf2e1e1a03fa06;0x8e6bafc45f6d1;0xe2c7f8df270d1;0xd09b0af788d7a;0x1a03f8a2220b6;0x770a3aa37bfe2;0xb0124577105e4;0xa649490f72e86;0x60909fd01ba];[0x1;0xe7403e89437b9;0x1eef316269881;0x3013f28067017;0x49e7a0dc46ec8;0x9888cf71b6005;0x5198bc863366e;0x224dccc967b96;0x6bf612906b8de;0x48983bf01f09b;0x89a199e7dab];[0x1;0xb86dd6b29af80;0x90b2e2207a4ec;0x3f0a881b62a7e;0x56a6486528f89;0x482405d161b21;0x1bc0cd24d78fd;0xb19b123c90e01;0x341da0b4770c1;0x1b7bb2da64450;0x1b3453f00fcd];[0x1;0xa0bdbcb92400;0xf0fae02cdbcc5;0x6d96aa8c22bd2;0xfabbe25fc7eda;0x59dcba41f7769;0xed1344a05c358;0x46230caac6673;0xd09d4b92b035a;0x2d1110b276910;0xe34af8531e7];[0x0;0x15267da0dc9e0;0x58aeccf93cfb;0x430a5bc8b22c6;0x6cdd0eb55b0f9;0x441e709b05854;0xc6b245f6ea49;0x10ce3232da1df;0x6c804ce3dcfbf;0xb995027e512e1;0xf8420b8640e83]]);
 ((V [0x5eb942590a158;0x846435ef3ff02;0xe520ce91c3a73;0x259ef2d1cf89c;0x2fec1586002fd;0xc7b53a6d7b35c;0x75e6ab83a0145;0x914ac7c03ed95;0xeeb6d61dd4025;0x418a9447e98] [0x434d686018cd1;0x4c381ba79c62d;0x265f10b9ee3da;0x6725297893cb2;0x8db58a6dc853b;0xfc28e16169d;0x212a7e033d251;0x8eb85874433a1;0x45f4f90bc60d7;0x35fc3457cf5]),[[0x843519a895b7e;0x6f9acdf394a2c;0x6fe8475c8d04;0xb4bdf4c96c653;0xe25d5ff561c8b;0xd69304858971;0xd6cade8ee6a6c;0x6eee468d613cd;0x4883f4f7d2db1;0x700b1002523];[0x5f654bb3fdc65;0xb3cd9d062a38c;0x9068c38164841;0xa346600100f68;0x4261938541d58;0xd0c12d6c9b684;0xcda5a44eb7d47;0x4934ecbd97cbc;0xef72a95a72b61;0x7d4f45c8257];[0x1;0x87063731c0571;0x488eb227806af;0xbe88aaa2f28c0;0x570635b9a2781;0x5d0f62b04fc2f;0x31cef78e527e4;0xd542802c954e4;0x56be55eba59;0xf7a8473df1c3;0xfa63e712ecc];[0x1;0x6eaf1d76baa4c;0x91afbe4ee0204;0x9a58f1793316c;0xbfe931bc14128;0xe6f10623175e2;0x343d7f6389dc9;0xb06d7d529dffa;0x22de06575b49b;0x3e803007467d1;0x27cfe746235f];[0x1;0x948e325b737c4;0x4e97f8d8880f0;0xd312b6d4b0f8f;0x942324940be91;0x7e2f60f4b402e;0x144018f24ddb4;0x45ed2c7b430eb;0xe9b198657224a;0xe5a69119d78b4;0x36aaaa357c9];[0x0;0x80d1d82d0286c;0x1d176e136d991;0x56bf95064c96d;0x80fb271195944;0x5c68c3e6273a8;0xa49ab8c9ea458;0xfcb659419cb69;0xa1512e5bf1482;0x348e564e6b1d6;0xdf625832e6d81]]);
 ((V [0x65135f261bf06;0x8b2b31a6131f7;0xce93b1908036d;0x39d880fb46c66;0x855c19df6465e;0x5fbdd6e2d1893;0xebf72e3376433;0x5584e97e2440b;0xca9b8ea937dc8;0x648ea848f7b] [0x19c08da111b93;0x285619b651ff1;0xe24169a738f5b;0x9f24d653ab4b5;0x46180e4b558bf;0xe792716ee72fd;0xa13818bc4bddb;0x45c5ecc929686;0xbb68d4639c643;0x47fea2aabf6]),[[0x251e418f702d2;0xbce6e1f00e3ed;0x5b068aeb4a4d4;0x5a2df16749006;0x6d44820953a0a;0x3684a90364778;0xf8a181b6d5de3;0xc6255315f1e3d;0x6db33a4409fe7;0x26939048f34];[0x6feb860cfd207;0x939027689be5a;0xd67009da3e84;0x5a838048e16e;0x853edd2ef882a;0xc31bc4172f06a;0x66ee0c871d57f;0x7466e35f5e9e9;0xf6a6250b232ee;0x166635f39ae];[0x1;0x164eb03d04a40;0x49a42bfd7e110;0x34f6c0a01d55f;0xaf866026c6522;0xdcdb1d329ebe9;0x68e85113bcb2f;0xe9b742ef032fb;0xf673dfb632821;0x39cfca0ff9b4d;0xb3d1745c5d];[0x1;0xa32b9255e72a4;0x9ccdb5cdffe54;0x26af4387ae1e7;0x804de2d8ffe64;0xd4f2c683390;0x185e44fef54bc;0x5f9c69c959c4a;0xec39fdcfb88fb;0xc5f276c3c916d;0x65db0ba4461];[0x1;0xd933c20b59604;0x2e50736a8d8ea;0xd7f6ede0e4db4;0xbf36df6655b4d;0x182af550c0764;0xa4dd303f5f679;0xc81de112be5f3;0x8e3277a4bda86;0xfdb4e4d2e5d9a;0x1c3a759e83b0];[0x0;0x36318b295a9ce;0xe7c3476cccab;0xc97955267627b;0xe60190ba3137c;0x5a20c97e3017b;0x1deec25afdaf;0xf6dd6ac140c9d;0x2d0323ac98008;0x7a9040427bafe;0x4c4730e0128eb]]);
 ((V [0x726b6e185004e;0x45e5abccbabea;0x4f4d19902ee3d;0x40904411097f4;0xa896f045589d5;0xb5899028ba323;0x1cad08b3285a2;0x7ec60eec90db3;0xaebe3dd71cd62;0x1295798bfc2] [0x56af6f11143d4;0xf725783a7a2;0x205a64b855c05;0x5124e39b88917;0x36b45dea6453e;0xd479be4980df1;0x1779664db2efe;0x2fee2391b25ce;0xea3dc8d0ae13;0x67d0cedffd0]),[[0xbc6f0098d6911;0x5cb929f166c19;0xfa80460782877;0x8dfd6e737d225;0x7e6d76baa58c9;0xda7b5b0e82bc3;0xa74f8647663f5;0xf61a326e83c5;0x4a6f0964ec37d;0x7d404e287b7];[0x4624e7ddd596e;0xa399f2f984b93;0xdf515e7d1b54b;0xb185494d5a22e;0xd22afa2a712c7;0x803b3b11b965d;0x28dc7c7863b01;0x2088971318005;0x298226ee2e663;0x263be41a234];[0x0;0xe1feb266c981c;0xf1b601b2983fc;0x9c3725f0179ba;0xbe304a8084fc7;0xe1c8c9e51498d;0x7e4704ad0e49;0xcdaf3d9ab7e1b;0x2b540b647917;0x6f76c7448abe6;0x287bdbbfbb];[0x1;0x823c2f5255026;0x741fd7010744b;0x5e39ef05c1229;0x6a6bbff640502;0x6d05529c5f737;0xcefd36393a314;0xa672d7538af65;0x3e76c1d7b504d;0xb66971dd3d110;0x5881ac58caa];[0x1;0xbd9d7ed511291;0x4b3874311b8dc;0xdcfc6bd0284be;0xb594fa967cb10;0xdd1c8ce95fc3d;0xfce292e961599;0x827dd5ecd2503;0xd6617e16a3381;0x3d0b2c399449e;0x13cd5db466df];[0x0;0xb9b070e13859;0x17a99feb4b0ba;0xb5e5f4119a580;0xadb2350a9539c;0x762a9a4dc05bf;0x9a74c4470f11f;0xf65a873f2fda8;0x4d6aa03967335;0xd4ec8ad6ca786;0xf9ee7442539d7]]);
 ((V [0xfedee02fe3a42;0x7517821ab128c;0x84a4860d4297;0x4b8d7adb140fb;0x7faf3153b225f;0x80101c7c2720;0xf8887942b317b;0xb8ef81c4c36f7;0x2217d33726647;0x63b2536521f] [0x409fcc32f16f6;0x9fc7bea55aab9;0x181422c24a1ce;0xf0d06fcac908e;0xb96f6edc885f9;0x87de670cc3f3d;0xf626b41c81225;0x26ca9399f9f2b;0xa406d333a5d0b;0x282acbee5ff]),[[0x38cb8fe86c2e2;0x12d59cf3b6862;0x737c5ceac6df8;0xa243c6a3b3ee6;0xdbc7c71d1094b;0xae2b925e8529d;0xe23cb74eaaf81;0x96c0e2b67ce07;0xf0a8bc032b2;0x45915674d7f];[0xd2da81cf540c1;0x9759625eb0c07;0x13dd5a9250e0e;0x78173d3543816;0x5918e8a155726;0xf9b393795e39f;0x11d931d298304;0x1dced2ea7c6fc;0x3969106fe8fea;0x3d8037903b2];[0x1;0x85623a760c184;0x4e4cf662ad294;0xd5d373b689e96;0x97bfeedcea161;0x3b6ef9455982f;0x2c7f8b4d8e922;0x444f510d00492;0x8afcd0c87e4c6;0x8c50405396058;0x784db663aa0];[0x1;0xaffafc0956550;0x895492d00eb7d;0x305bfc1b9d7b0;0x89e98faf95f2;0xce61d66c19f17;0x7c9ff0eb907cb;0xb7495b238ceec;0x99d78138978e0;0xc846ec35de697;0x100286d0513d];[0x1;0x35c3181001d44;0xbb3c79439e7c3;0xba1df512f9154;0x945b578e8f498;0x8aa012130f054;0x303a575b9cb4;0xc2fea1d12ea28;0x9e8baadb6d530;0x2799d06808856;0xebeb36be20a];[0x0;0xcf56a49e9dca;0x88919bf298992;0x69a32ab8952a2;0x7a98c4510aa4f;0x163c10bc30f06;0xf79c1353282f8;0x48eb0a756d2a0;0xef7cdbb21cbbe;0x3b8855a8120e2;0x8a1c3163a0ba6]]);
 ((V [0x1e739c6ce5e00;0xe746dc56493c0;0x41e448eee54b6;0xaf7cdfc070cc5;0x6724039eeb597;0x67ef504fa61b8;0xa34dd8c985400;0x9444a27149085;0x6a63317676533;0x69d44795aea] [0xe8f614c69c8f9;0x381717aeb5a7f;0x6797620fa546b;0x63e28a8293ea5;0xc589461186dd5;0x4bc850051bd4f;0x3bee6400b3258;0x12b1c05a2f6df;0xf18a2c59056cd;0x5ee9d574e4b]),[[0x6185c4c14f00e;0xfa5c31521831d;0x7645dfe1c770b;0x1bd438f46593e;0x1ccc988918fa;0x858d87c59020e;0xb517bf24afba4;0x44e31e4e3289e;0x5de29e6bc457;0x503f3a4a08];[0xf75511f0d82a6;0xe06d3d0dba9f6;0xe6a684089bcb3;0x88a5dfa20337d;0x7c0c460d6a4d9;0x819c732f40089;0x86f451ca4235d;0xce4e117cf91f7;0xa7a72d5c9bbc7;0x6527bcd70a5];[0x1;0x6b51488ca6ec4;0x9a989e3a185e4;0xce51853037627;0x81478c531956b;0x15291899039a7;0x9aed1af1ffc5f;0x9c71f168cae3d;0x6d2c50c8eb01d;0x687bd3d3b8f93;0x7ca8a83d7c9];[0x1;0x9b156ac4cf068;0xc8816be096d4f;0xaf64f30780999;0x97f649493d938;0x37db9cf08f32c;0x928e64d8d8a48;0xbfbf4aa2ad4ab;0xa39ebbec26c2;0xf9c5520225551;0x25bc89a303eb];[0x1;0xbc9909699da84;0x4473fe1a39803;0xcdb152b40f474;0x7987a9021aae1;0xa15bc0726dc88;0xc69826b93077f;0xfb50316da18e6;0x4f04b7f39672d;0x5fdd6aee1978;0x2623f8d97cd1];[0x0;0x2d49f6ca4f032;0xf710705c359fc;0xf4ffe6391c6d5;0x9fd83b156cf3e;0x221e7ecfac9bc;0xcfcc5c193f6c8;0x91b2b5c0f6402;0x55a7dff484ea4;0x17691ea94f01c;0x8fe84761d206]]);
 ((V [0xd73bb54049c9f;0x5764d6d4e3d08;0x2bec19f47b38b;0xa1d7ca9132b0d;0x6e0569b01f70a;0xc9866f4400b59;0x10ece394ca41;0xdaaaf02c00a72;0x652b9474e7bc7;0x2af73c9b02] [0xacf7af0c2860d;0xa5bf5076d2bb5;0x7982462a3a030;0x2bd1bbf11f71a;0x915b6838e05b3;0xc4bd4ce98353e;0x156aa25a6b127;0x66a68da352b5c;0xe7c7e41363afc;0x4c842319781]),[[0xe65e548ccd1ad;0x9d4f573c63470;0xeea8f62920613;0x60b378b2a3d0e;0x53f016dc4ca9;0x7f7e87255f6f2;0x277e47c684e0f;0x5dbbb53dce5f5;0xac497af1dfe59;0x665c484e8a9];[0xf2d0648d5716a;0x5798493bfb089;0x4135ed60e1afd;0x10f2e0338daa0;0x5c78dfcc2ed32;0x64c515dd9534e;0xe4bb3847dd265;0x3056b1fb44b0f;0x34cceeb1bc2c2;0xe07147dd59];[0x0;0xdf628f7bc0000;0x6ec26d2ea0482;0xa78e9c8fc7959;0xba0c715dd44cb;0x2fc5b625b7c69;0xe3aa2ca03d888;0x50ea7ce671237;0x7e5d96e24fbe9;0xe13def0152cbf;0x3b717c832f3];[0x0;0xbe8e09dace716;0x2b8dede012dde;0xf765756860366;0x2fd868e4ef67f;0x51ad9124d14b7;0x4a90a2494b3d0;0x1bcd8e5ec0b24;0xbde2d341e24d0;0x2f765d6709205;0x43a30c9dadd];[0x1;0x1b764bcc2fdd9;0x7fbf38f57bd24;0x3b7686ab2f4cf;0xb989e5acd7542;0x7862b3e041968;0x6b416fecc7ca0;0xa1bf4adc2973f;0x8154b46804948;0xca52f33652f9;0x15ad4b024d44];[0x0;0x1809c01f4d170;0x6dc7f7aca0f2f;0x6523be1e64b06;0x2b1fc34b255dc;0xaa4373fe55232;0x2e178e0c98214;0x3e9a1cc79c410;0xc9f9b5399decc;0xa32fd92c5a650;0xcc1a8ca9c9d11]]);
 ((V [0x5c99ec7872ac6;0x7e078a7826fe5;0x43d52880b1c8c;0x82ab687422f2c;0x12bc4b5beafa2;0x9e2300f2c1bfd;0xb20f2e2c4310b;0xca6aabae5f09b;0x1bc8604b100c0;0x6e2fda31822] [0x627c17ef4523a;0x96fa4c227b77e;0xb170ec9729f51;0x71830e74655ce;0x1606603320f36;0x4df4f1236a90e;0x98cb1d7babc73;0x3a0f482d3eb92;0x11b8e272a4546;0x6ee495af0d8]),[[0x39639d258ac1e;0x3b0b604b1a8d0;0xd2852fa0ed844;0xdd9742be3a7cd;0x2f11e4515d607;0x622a6efba2d74;0x6d2d57f3a0575;0x755ddcc1b8a5c;0x1e64738918572;0x4c63615a649];[0xcfb5300917a7b;0x34d208859334;0xfb1414cd8091c;0x3534706a9ba3c;0x88605d6605b6;0xbbabaaecd98cf;0x2c47887ecf23c;0x160a27a70cb96;0xe4a7165d215c9;0x2f3c828afdc];[0x1;0xb6acce7864031;0xc4a67fbd26e92;0x40b35abefeba1;0x947a3b7ca90c2;0x920bbcc0e7298;0x94da3a78e7034;0xee6a143d19f5d;0xa64c95422b835;0x1331c760941d;0x5e6a98f8a9e];[0x1;0xdebd9c1ec44c;0x866c3ff6ab4a0;0xc9da3caad7cd8;0x684450582021f;0xab6ab774d3b26;0xccbb0ff1dccca;0xb7ddd96919a69;0x41a67f03fb9b6;0xae0436ce0f73e;0xc01754c9118];[0x1;0x7fcc54c1ae144;0x8691821e13ff3;0x161057003819a;0x844e116c8ebd4;0x3290d2633130f;0xf88d1eda7ec1e;0x1255d2ca0f723;0xec274cbcea758;0xb089800f3d0d;0xb98732c58b9];[0x0;0xa43172bcc1690;0x4afcd39546e19;0x29d6608338a38;0x357d9d979d372;0xfb2c15c5cd7f6;0x4f30693c5509b;0x32e8ad41cbf88;0x747b10d405f95;0xc0e5e54b4dc86;0x975c2cf0b26bc]]);
 ((V [0x16cfd4b12b6ee;0x4963ec895dbff;0xe7d8135fef793;0x5a0725410d3b4;0x1852aa5c071c0;0xa2e173db4e275;0x19fc1c971f158;0xbd7dfb25e8939;0xe68619e3aea5b;0x161fb3e675d] [0xf4d648fbafefc;0xbcedca76bb8d3;0x46ea077c82dab;0xc635db68387bd;0xc1b3f9eb1944b;0x49226628870e4;0x118cffcef4700;0xefbf9bc8c55c7;0x875931aa67f6;0x23f52843ca8]),[[0xdafa3b178312a;0x2cfa6e992dfa0;0x806d09d116b75;0xe302c09309f8;0x5bbd56598bfa0;0x4f74ca31890a4;0xadb6449b2ab2;0x555b35b426cd3;0x153300bcbe9ba;0x449b03eab02];[0x3184264189e18;0xc3b327fc31c2f;0xdfeae94d3acc7;0xc1c06b04ec9ea;0xca7ed974e2eb;0xfdec5e0138729;0x81207f3bad709;0x842e6c485bb2e;0x60a066fd18c9c;0x3f7d09494d0];[0x1;0xa34b7dfc8b4e4;0x3e41c4582fec7;0xbd52dbf51a767;0xfd7a98ef6bcb2;0xda81379b3d2cf;0x6448ed5dad4b9;0xf5818efc7e221;0x187f672ad9fce;0x5d0d704de0786;0x201fc1a9d21];[0x1;0xbf22c800dca88;0x4c697cfbfdd75;0x55af7943bbec2;0x190f8ad1167b3;0x3719d4cbfccd2;0x556e362293bb1;0xe56d79e091574;0xeb38adc55b36c;0x83e326483734;0x1060ec049efe];[0x1;0xcf5bb0b0e42a4;0xb0d004fa30e3;0x4c533eff13138;0x56a94ed9477bd;0xe2b45a8d5fad1;0x5698d54c2f5d4;0xc6ae61b785069;0xaee47c8d3bd32;0xf1b344e3a87e0;0x1c03960ae1c9];[0x0;0x9362a723c9aba;0x5eec8d8249318;0xb3cf50b591db6;0xf89553198c455;0x12488fd0dcae9;0x15bbd28f91493;0xde94538cbb64b;0x5fd8721784f3a;0x1f13cc2bdf09c;0x88842297fd57c]]);
 ((V [0x724bf4a3808ab;0xdd3790e864045;0xafe74eb41629;0x6039a42175a6d;0x10cc949186e1c;0xa99d2ceed081a;0x1ba1a9e0e6aba;0x672204c24794;0xc517e77600ab3;0x7252ee4f5c8] [0x7772ce7488a49;0x9e3c653b7ef82;0xf3f5c4a5b3f0e;0x7a8486dc9ad1f;0x8020b5b036908;0x573eea84e1fd3;0x30746ac8fa41a;0x867aeb21287fa;0x6c46b1bb1df8b;0x3afbde76fa]),[[0x7e961a8bae37;0x11d62743840e1;0x23244ffb7957a;0x455c4abf1f59b;0x8d33b3e951dc2;0xb43652a214d90;0x995789b7137c5;0xf3bb5b19fa5fc;0x1d5a8c2d9090e;0x2e63465715f];[0x9c8884790fd2c;0xb3222b009658c;0x9d323002ed835;0xa38fc6f3edfdd;0x90d2ea73e6a9d;0x5c0d9c70f5aa;0xe88a53d31d152;0x2869492e085a;0xf46f8c0f3e82a;0x2a5b58a93ff];[0x1;0x5907a4a855704;0xfa697217f447e;0xd70a8ec535777;0xbea843a75ed23;0x33e58b0be41a1;0xe1fecbe9ec641;0x4065917ec80d2;0xaf47c5bec531f;0xd1bb5478ac98;0x50e3c3a1270];[0x1;0xcd21e85ab87c8;0x798c9270994e0;0x8204f33f89952;0x80139bf624541;0x16847277a27ac;0x5d45f43558865;0x5a3cf98cf7f23;0xb391c430993c3;0xd7aa988d7c68;0xe41418476bf];[0x1;0xc1e0db69c2c41;0xd96c604728a51;0x792b628155387;0x59acc1ce38a0e;0xcf212d2bb6646;0xab69318d55d36;0xe71e6a7cff062;0xab8a5bc21c083;0xf059b40602f0e;0x12c5504ab036];[0x0;0x3362434c510a2;0xd6138c2945b36;0x85b424cfdeb27;0x989d4587dff9;0xe207953d58bfb;0x8414c665fa71e;0x8106bc818f5ac;0x67d18394d868;0x3f9f94c05061d;0x5c843c3ce4e6b]]);
 ((V [0x96dd011dcf74c;0x108ec2ae53f0d;0x3ab01fddb340d;0x2a87342ed6d95;0x4fa2676022f97;0x7de1dd47a176a;0x579156e6200aa;0x50f766a0c342c;0x2f106c3d4a3b5;0x6ee285b435f] [0x299827f4bb357;0x4290c51da3350;0xc5bfd3f4de3c0;0x2fc7adb253003;0xbf363298571ba;0xdb4fef8cd58b0;0x713f0397e3d19;0x6f9f053fe3e4c;0xb1ea34d49821f;0x1ec9f566a15]),[[0xdc8851331ce41;0x27345f93ea4b7;0x61b11ffb65e22;0x9cd7a2e03c197;0x1f0ee1ab71fd0;0xc9a86312b7bdb;0x125fdca044103;0x4476955ddfb04;0x8f37c40c3856a;0x7ac1d833953];[0x55c08a477254b;0x457c3351f2a64;0x462ede339b5f3;0xc9c5d4dd9f411;0x425febfd8828c;0xd25adb5c0f0e7;0x969908aae83f9;0x1fd8218695eb0;0x24e325c499de;0x652ba682dcc];[0x1;0x4389296b5f429;0x20c93adf19eba;0xfc31e2c309b11;0xcf4310a0f03ce;0x8e044dcb51ea9;0xd0dc7072d2b5b;0xc1d4f27a5b247;0xe05c04d6097da;0x873764daffa9e;0x643b5ecd4b4];[0x1;0x4d48c49e13ef2;0x190bebb9dfb33;0x401cb81e66b88;0xa462903b6ac2c;0x607e17cf04097;0x3249ca5d3de1f;0x2eb89679b1b0;0x2032522c20145;0xd68d32b4b6142;0x257f3baa3382];[0x1;0xc3fe011dd45f1;0xf65e23e951e84;0x5206357d0f2ba;0xcc9161f2eee2b;0xf54e537f5882f;0xee03c71fe7273;0x6f9238c2b466e;0x33ffb829d1c98;0x66bba79e55c7a;0x231561af420e];[0x0;0xa7a6b43fd1892;0x767c8d77074ac;0xc0df5d2e78134;0xc1d6a9814f656;0x7ef0c167b1df;0x2af7c2ded89ae;0x45f4c16bfcb75;0xdca8f91735e0d;0x86987d1645fc1;0xf5bccb31c2932]]);
 ((V [0x90d90ae22c30;0x2c39358f55825;0xf0dea60728c5f;0x5677379ab5f3b;0x2a152133cc709;0x30bb8642b34c8;0xe2c25057cf70a;0xf48f0e8ecf497;0x5e60fa21dc5b4;0x2d290c9a91d] [0x9f3c5007b8bed;0x375c41076311c;0xda617a499cee0;0x22896d3043e9b;0x555ef64f9011b;0x1289df294f78f;0xed7d90b2242f8;0x4298e087ccf26;0x8328cb7ea8477;0x163826d8ab7]),[[0xdc17c3768eb25;0xc879559dbc99e;0x72dacf38522a9;0x446c3c1bac660;0x91d2cd7532aef;0x1b6c5bf8b546;0x1de483853b500;0xd0934d9bb6336;0x9296c0ff0528d;0x39079acbc9e];[0x761a841a0fdbf;0x59798311cbcf7;0x943cc1175bc66;0xa9f226de6659e;0x6b5ffd6de41c8;0xa018641d1e008;0x2c1ae250b4d12;0xd256a6b75f2ee;0x90c5cce782be0;0x65e64464472];[0x1;0xdfc270b5fad90;0x4ae9f234cb32d;0xc9305e124f3b;0x584769a0963fa;0xcfb629cd51a9c;0x8ccbffba3d9bb;0x9fe09ca41a97e;0x7d60e3ccc1525;0x8abe2d9268d0;0x6bbda21a219];[0x1;0x89aea9acff7c6;0xd6ee7dc3a57de;0x725df2d755aed;0xebdad86eb6a90;0xe243fcbd02507;0x7b46c47d55f15;0x8d577a0b4789e;0x4fe35413990d5;0xfb53be34c904e;0x247f6133b6bc];[0x1;0x7c46a5cb86349;0x7751e0bec2e31;0x7f79f0f9f2b6a;0x6b30a79cc1b7a;0x70653cfd4c69e;0x89de3960e1398;0x1a17552bd8be2;0xc5ea3f0eae935;0x62f88d3cefa82;0x1fc7369b4d22];[0x0;0x205cfcf0804d9;0x4e0f1addf5e80;0xe7ff2c20b4b5c;0xe933d4220eca0;0xd1e74f9a86a0b;0xbd2eeedbf91d8;0x2206a6718d6ba;0xde23abb682feb;0x728cf5dcf3efe;0x71fb81796ed69]]);
 ((V [0xf27de88a7a1a1;0xab29627fc3e46;0xffd5adea0b6c3;0x923825f7961f3;0xadd4b23413290;0x4cb8e36b67549;0xb980d2f93ce01;0x2c79ca503e187;0xc58d389a7f1cf;0x47065995978] [0x16f7a766bf40b;0xdfe8782a4b6d;0xb1d478eb62c2e;0xace3a3c6745e4;0x540b086d8397e;0x1f2cb658a2946;0xad411c808267a;0xbb6f3bcd020f8;0x4b981b11b460f;0x31470ca6ba3]),[[0xd4299ce7b5c6;0x41ead45e6c0ed;0x1eb8be32293b2;0x16c2da242bb7d;0x6d291792ccac;0xc206854d9d915;0x54fd82a33a11f;0x7eb5f9dab12af;0x445aa30a6562f;0x6cea710338a];[0x6dadf3658e7e2;0x2adc71fc87f32;0xc925691dc7ec;0xe73b63c544ff;0xf9bf31b5f3f86;0x4d0f32e90bc01;0xc6e9aa06b3af8;0x321e81655dd8a;0x8eb1a600bc1b7;0x3fc2352d0a1];[0x1;0x2ecb702c57900;0x1ef27c522d46e;0xb64e2fa6784ce;0x8ce636bc78a3c;0xbf1c0eee03912;0x43ee6c814c439;0xce85436ec75d;0x1ed2e819f05d0;0x44d6ab41a32a8;0x6f958053516];[0x1;0xc0393fe1eb4dc;0x9f865d0ef018e;0x3566f0ed09029;0xdb768021e7714;0xd02f3f8d5a9bb;0x4c5878d3d1998;0x7f638a2ca4c99;0xfc1a0130fa183;0x532def35a50a5;0x158bd18f6502];[0x1;0xb804839fa78e4;0xa4de5d4c045b3;0x63da70da705da;0xb79361d698815;0x7be47a842d462;0x4504b0fcccccd;0xd491a2f00b750;0x5b24f58adf472;0xc4ba0e7a8172f;0xe603997a6f4];[0x0;0xa5caf81bbaecc;0xe229ae268783b;0x81b650d833e36;0x3906cfd3cade0;0xfebe276cb44fe;0x469efb3c52253;0xbbfefc35e5ee5;0xd69080ded3548;0x5f3563ad25397;0xd99ccbf81b298]]);
 ((V [0x7f04ef253de10;0x28f28e8383a91;0xd0972582f323e;0xeae23920328c9;0xb6dec140182b1;0x6482501eddd5e;0x6d970a2d15201;0x1c9ec846b7317;0xc9655a3ffb219;0xc12014b1ea] [0xcc0aee3cce09b;0x790f96e6a840d;0x7c05fd9745e9f;0x53e36a2c55891;0x32696f29bd762;0xb67c470c0c85a;0xc60d8dd35c88f;0xa8ea74e57136c;0x69b6d21d4efd5;0xfca2562d44]),[[0x32ec496e5460f;0xf5914518a4324;0x47b82f50c3b04;0xfb7d8ac19898e;0xd9c09771f820c;0x8aee59cb2ac1;0x8ef937aa325cf;0x1676999ce580b;0x72986d5bcf339;0x1f3528d45f];[0x328a6c33e73a3;0xcaf6911f8a017;0x529fa7b7c2089;0xb0ed5fb39b3bf;0x3684a9fc473fb;0x29331591e09d7;0xe6c57a6b88919;0x9f6afab2ae326;0x82b23614a4050;0x10ce48901fc];[0x0;0x3474dcbbb0b4f;0x96bf5e12af2e;0x339a3fa4742d7;0xa9e80cceae61a;0x321d960d54143;0xa2349065fcd80;0xda268cee874c2;0xee59fb68a13fc;0x846feefa96abe;0x5cc7a92594];[0x1;0xaa152d7d6f7aa;0x697577114aacc;0xe18b3a728ae26;0x9c699c7a541ae;0x69deef2cc58a1;0x956b6714c15af;0xcbf10648abf04;0x29330aecd70b2;0xca06350f0aa7;0x63553dda4c2];[0x1;0x86521a860d851;0x437ba53437d5b;0x57c6db1d507e7;0xfca61dc01579b;0xe7a1db4927df9;0xdb6f31a788963;0xf13553976d130;0xddd70c21107ba;0xf6f50af5a1945;0x13435cd16c0c];[0x0;0xdf393f1d96200;0x30effac2f08c5;0x775a184b4844d;0x7d5fc0c4d6916;0xa6bb4998a2148;0x6008ddfdf5a97;0x36a94a37a1c7;0x877412fe6aebb;0x94b584308f675;0x3675c039be39]]);
 ((V [0xe3adae3462711;0x86284c480ab17;0xfbe5cac55fc79;0x166440c299e7b;0x87804fed15fb0;0xc285282f6780c;0x86a632655e2fd;0x3772e54d4a66d;0x2e7c79fd679e0;0x4143a7c1259] [0x9e77a51285933;0x70b763b517b43;0x204baa876088;0xcd1b8a490c0d0;0x790392f1bf4d7;0x38215bd8ba059;0xf36b1547da0f6;0xf1a6b536ef4b;0x5087e9f21fe22;0x515551b5322]),[[0xe18b2e63cac34;0xe17fd14bd44e1;0xe14401be980b;0xfa027b93128f8;0x2f842e552f13f;0x771e5ac986600;0x78bc1a294b1a1;0x4104541493fde;0x9d206ab78d345;0x6053fb339dc];[0xf2eefdbc74d75;0x101e1c6337817;0xf10779162615d;0x26539a1421560;0xaf4cf8c20f92f;0xd7efc6acb3643;0xa558b6fd2c94a;0x8baee1c130314;0x4a69be862f5ab;0x34cc1a05db3];[0x1;0xfe459cd453100;0xf4009b87fce4a;0xee79dd429f26e;0x43586bf3bf5d6;0x90f412ba2e86;0x1a84c33a2fce8;0x5535bd338c855;0x40e94b1670e80;0x4f7eccdfc87ef;0x6874d145438];[0x1;0x371e82ef08b78;0x17fe461a2330c;0xd4db20dcae896;0x92b7a04aefb0f;0xa86dc864ff1d0;0xdc8b068a0dad;0x5012d301e60a6;0x8d4906a442177;0x3a1475129069a;0x12504abece20];[0x1;0x4602dd9b11990;0x8eb2d2159284d;0xff81c9137f11;0xe6585d6794798;0x34bdd6cd04bba;0x6bd68c87d1157;0xc99867956d6a1;0x2ef95511e86fe;0xc487b6ac8434d;0x6a5124c7a53];[0x0;0x1140442355f28;0x8c2b24ca4ac49;0xb0b9aad00a24d;0x4adf8a86d9d96;0xcb64182c772d8;0x675c9404d328e;0xdfbeff8c5a27;0x36b907f6088fa;0xad71d066fd655;0xc01e0350cfdf1]]);
 ((V [0xadc1c692f1f19;0x599bf1931f1b7;0xbf774218cbbdb;0x6ee118970dbdb;0x4e7aaec00dfd3;0x5d074ada2c33;0xe5a8ca2c6a794;0xcfcf300a39536;0x5f728fdd0304a;0x3a8b49207f] [0x4da2bfc1f7c98;0x980175f3f1976;0x34ff9fb78d50e;0x59d36d71fd0ee;0xd1dd5e12aae90;0xa7e16af1de911;0xbe2c6259065b;0xc9a538a0b7f6c;0x8741093ce804a;0x2a023211bd]),[[0xb94d34eef9eb8;0xca62d7bc306c6;0x864864c585757;0x7222003f29c06;0xce9fe91e70892;0xda5e0d7593954;0xd6b64af978831;0x27c02da2f0c8f;0xa8e203bebe8fa;0x25d4697c0f0];[0x3681adec3294f;0x5a80113d756bd;0x9748ddb36df4a;0x7b96695a11dd0;0x8e4da464eb355;0x62ebbca83273c;0x4bddcf7ca27c1;0x835aa2b60b73b;0xcbbd0eb926347;0x7136c20d9be];[0x1;0x3515b31808e91;0x9e9beba5745d2;0x4a306a03df02f;0x5e016bf1914fc;0x8ff33f30d7e4e;0xcff33b32d509a;0xa87b432d5c23;0x435d9370f7ae8;0x1ccf1c4fc2c94;0xc126a9f893a];[0x1;0x23c45b5f85050;0xd96fa268a30d1;0xe9b8120723d9c;0xdbc06c3e7132d;0xcf99502b213c6;0xbb2ca2617917;0xfd596673d4dc6;0xfdc9bd8c968eb;0xfe4e0c4257f6e;0x2773548689bd];[0x1;0x6ac524a1bc040;0x5dc637cfb4169;0x188c7c566cc8d;0xfb4d50413d5f4;0x56243442b2700;0x68d4cd6f3a817;0xfc78443bf1e6a;0x9d992be366c4b;0x59f64962aad00;0x10131daaf2ba];[0x0;0xc8b3d81218878;0x6b994f4224ec9;0xd0d9243c56c0;0x41f9989da5018;0xaf5d98a2061e0;0xf1e0bbbe17779;0x43749cd614957;0x78b74ca471007;0x9b7e76b5d027f;0x4b38f17da0bd9]]);
 ((V [0x75a127d636a84;0x42b5766c4d8e7;0x4dcf0cea69a04;0x7fbbf3688a353;0x59c6d9d46a689;0x6bce816f8ce87;0x4eff8b30d9914;0x2123a24e1c29b;0x314199e7bbf3;0x4544481edb7] [0x33595cdecb175;0x9a404be287dc7;0x6398727fe47d4;0x357bf95a96e9b;0x75033fa106538;0x21d600edf9053;0x97f33e222ae90;0xbd958c7fa60cc;0x67a8490d5d8f2;0x26b72d0c8d6]),[[0x6848762634f55;0x972340d85224c;0xc91c2be829633;0x9dc26d8b8888b;0xca46c5f073ab0;0x6179aefb5c962;0xd3ff18c12c889;0x2dde19ba8cc3c;0x32666ead56f53;0x593d03ed30e];[0x4a5918be0df49;0xafe5fcd814d25;0x77b479e832592;0xf826481a68c1f;0x9618fa0a06e62;0x1fc481b2d1797;0xd7e7eacdaea86;0xde36f5d199e2e;0x1dcf5f4c2ff4f;0x4e78d525896];[0x1;0x30cc7250952e1;0xc6baf2d13ae42;0x128435e0d8abb;0x1b7b2fe8d157d;0xe131374c565a6;0x7ed435cf92a7d;0x5925d35bd3162;0x699f7b72b595b;0x3efaf41481ad2;0x9cd6e3793c5];[0x1;0xe21eb88ff25f0;0x53442404802ba;0x23672b823b175;0xd84fb3fe67a12;0xcffa03cba53c5;0xfce9dea3e0df5;0xfa81f2375e91b;0xc8da803e9d1d7;0xa923c10345a47;0x1d32bcd3c755];[0x1;0xa26071f0f6429;0x4f57ee3feed44;0x9520840b20ffc;0xef8ae117cef4f;0x3c60d5d851de4;0xa593c854d153a;0x409fe8c0de7a4;0xaa2cdc6cfde0d;0xaef6db0c49ecc;0x5af46bfa408];[0x0;0xd73f90dabaec;0x74ce714231e3;0xafbff899fec38;0x240d58d657026;0xa04078ed7e45d;0xfb65902055838;0x1ceab8a9da02f;0x1bdb120cbe6dd;0x70dcda74a6869;0xb252d8cb342ff]]);
 ((V [0x9bcd9c5223a4b;0x1b5af5a038e97;0x609906e3d45d9;0x970c5f0b0ddfe;0xfdd685cebde5;0xc6ec0de141fcd;0x53644f1865383;0xb8b7102f09b66;0xc2e07595ca19a;0x6b10b812e1e] [0x1d3f7fdb99a47;0xaf72e545430da;0x60f9ba5b21c8b;0xbe78e7fefa6c7;0xebabcae51f463;0x7f906b26d25ff;0x8fa37c70487cd;0xc1545ead8dfda;0xab35ed26a3f95;0x3026b7b88ca]),[[0x6aa3b3f7a4fab;0x588318ded58b5;0xf42ded529b5a7;0x889c8f5170c2c;0x6be31d3880a08;0x923093f2a6e98;0x6bfda58f27081;0xf5766f06ee506;0xf7d817e272fa7;0x34d1311ab18];[0x14498cc8ce4a3;0x69d3bfa30b6d5;0x1f1b5ace5177c;0x716351c72f056;0x25524d6a2f638;0xac3caed44f4ee;0xdc40bc1979e4a;0x676d0bd84a427;0x6d6974d9c6d37;0x49c6e87a5f0];[0x1;0x29389f1186b10;0x5cabbc4ffc8c2;0x8c9a09685c6b9;0x9ddef3d1af1cf;0x765e0e1e1a790;0x3a4be32b2d713;0xcf20f0b79c43a;0x64542f76f8af8;0xcd290ff644ecd;0x6e120ec6b00];[0x1;0xb1024af7bf86e;0xb2db0d1ca9025;0x1e0966ac2b98b;0xc570d49cbcfee;0xa3330e78ce183;0x18d968cc624a7;0x32011b2d0eec6;0x54a7374924cbc;0x6b230a3058d82;0x19ab6126085f];[0x1;0xb852abcab2e29;0xb41510d1089cd;0xbe3ac433cb5b5;0xe303d4a727353;0x1dc369008dc2b;0xd4baf693e5fa3;0x76387f033d53c;0x945d37b3a0285;0x23d031446cb2b;0x1d56742d9135];[0x0;0x286dac7e2d48;0xc6a2a7f76b856;0x1985a60a01325;0x8b480856cd89d;0x87b44583fa324;0x452e1bdbb5f1a;0x688693dff47a0;0xbd1715c86ea16;0x1f542c73483fe;0x6919dec929888]]);
 ((V [0x3c7f15e30c144;0x49a49d02acac3;0x68daa8945f2fb;0x470b2cb55d641;0x20a7afe0401b4;0x59776a2078901;0x6e5ad63c9b751;0xa38e3b91a9943;0xc33a968679541;0x21de9b786b7] [0xb95b3350757fb;0xef9b87d2b2aca;0xa1101f9cc9729;0x249b5b4402010;0x44a7ef5b28426;0xfa33d0ecdbe36;0x9979e4eb864d6;0x294fbb5a36747;0x6c4bff1f2ae42;0x1a48c288e64]),[[0xabd24dfab7d0e;0x2078b1c76c861;0xc969f58b6bdf2;0x2ccf24c723560;0x909444ecf6d1f;0xdddf1cf19c8a1;0x31fc266af8307;0x59bb0e1b89c12;0x62e1c6ebf0a99;0x606cc4ed885];[0xb5732bdd7e68;0xb319d1f4e367d;0x7824012a4ad91;0xcef20a0a55ac1;0x6da60a0024028;0x16d00551426d0;0x2206d70ccd5ed;0x73d833d1ebb7a;0x5099ab5e0bf3e;0x20fedaed2e];[0x0;0xdc5993be27817;0xff3dd9c08a89a;0x20fba39eebd7f;0x44aab3e06dc9d;0x37b92b024e836;0x3765f14e37162;0x11b62cc9aa601;0x404a921f8f2c9;0xb911a7cffcf71;0x556e1a90f95];[0x0;0x6405b5730007c;0x7e854ece28aa4;0xbc5dfff9723d2;0xf4a1e5427a64a;0xb4a5a7a66f457;0xc2b82157f8efe;0x88f6132604b5d;0x7748a2d6d9ef9;0x7d6d09907a66b;0x3c2c56fb31a];[0x1;0x4fd8fb9358684;0xc52065c952b65;0x95f988237c9bd;0x34b1a0af4745a;0xb95c827d1d1e9;0x5f66fdac3ff61;0xfeb881ccdc46a;0xa288973af940d;0x89e8462970e30;0x1a75c936a925];[0x0;0xe5113e954d2cc;0x3659ff7a05cc4;0x624afe9ee11ee;0xab8af0bdff389;0xa755cc2cce151;0x2e1d3f1f0afbc;0x8f4e441afffc4;0xcb8aa0956ab57;0x362c674fb858e;0xc0dc3b73d3da8]]);
 ((V [0xbe119a07152fc;0x5a3ee72f99910;0x85de7a7bbfe13;0xa4a2de0182da;0xb38ab743439b8;0xf5c5bc1ea6046;0xe8e4834851e97;0x66dfd47cc6fdf;0x70e25007e5e84;0x3fbbbe8541b] [0x438e7a713bf79;0xe042433f9bc34;0xb2551f6b5e0b0;0xae83670c2caa5;0xa6c1367bcc08b;0xa7e6ff2bdea4f;0x5741024bfb03d;0x5a61d19a1229c;0x7abf2b42aebfb;0x631369d5f9a]),[[0x2ca1b68458438;0x675956e4e83c7;0xeb5a34f44ae53;0x24832635026d0;0x3311c292c5840;0x7070a536de4ea;0x6f00e9fe7f2ba;0x9edceaa9f80d7;0x24fbc57c1b964;0x181e7da6fca];[0x96ca56a41f365;0xcab8b37d6898a;0xb7bdac729cd0b;0xbc74679ae6030;0xd21fcfd47896e;0xff1c8b1b45c9c;0x51be0cfbf41c9;0x86e0050bd506c;0x68376aa92cd15;0x220cb4ab165];[0x1;0xf1aa7caff1110;0x3de65a50d79d9;0x94551b0c9bdfc;0x1e0155c4e16e9;0x4053f079ee5b5;0x66b4f340bf938;0x6c8426c62edae;0x7267352f4c26a;0x60fdc176cc485;0x3b231e080eb];[0x1;0xb5b0cbcccb0d0;0x8dcdffa1efa0;0x64cad6fb2f63e;0x407e12e842839;0xd3a4b4baa35bd;0xd0b8b4e065279;0xf58baffee1d1b;0x248a1c4571376;0x37e15abc2bcc3;0xc2646d594f1];[0x1;0x8b1ffbab76840;0xb5757a44edd47;0x311cb24f5d8ae;0x167b8962c72fc;0xdcc6568dfb358;0xd09db025753cf;0x624f4770929b;0x1cb566a051fba;0x2a1ad660eb609;0x10266748a310];[0x0;0xac77aff451078;0x3a579c4a49006;0xdf29b11b89938;0xe0bfd030759b0;0x468311dc93c2e;0xcb1a80ff5ff40;0x9150502332a7b;0xa85bde1d1d593;0x26eecd0e3700e;0x2f54c0df2af84]]);
 ((V [0x857780f0385cb;0x152712049c085;0xa400a14af1ff3;0xc3040f3b2dda8;0xabb66a5a3fd90;0xddb5481239beb;0x747ae9a45e1e2;0x9b403acac139e;0x49f1b4606d638;0x79a1dd87756] [0x716ce891d6a4d;0xe6d25ab0466cd;0x76c59dd2d74a7;0x9eba6092846b8;0xfcf52a2841246;0x33992a133a4da;0xf8197a0646d76;0x16b646a495469;0x7fd255dda13af;0x70d5f1466a3]),[[0xe2215bb9d1d32;0xc821ecc3f7970;0xeaf008e94d802;0xfeeadd7224426;0xb3c5d76d0d9f8;0x9374e640e3ba6;0x37ad8b1ab6868;0xfaee34eecf4d4;0x3ba0b551aa55b;0x31a51d8d808];[0xf9f428a48ebcc;0x97d23812cb19c;0xb080b440e8c8e;0x4deb1ce047c40;0xca4fea454232b;0xe58d6083bcd0e;0xb736e3a8b53e8;0xc588fbb78a04f;0x4364ff13aa1ef;0x407b6b74fae];[0x1;0x6b622547dff10;0x35119dc42a892;0xff6d807e3efb8;0xf33e7634f0110;0x238d17be26347;0xb41020760f5d9;0xc7e58e062f035;0xd3ddab9272cce;0x81203fdb73f14;0x613af3ff002];[0x1;0xf9f0695114704;0x7006c03cf4e5e;0xf2dd256bdbbbf;0xd63728893908f;0xceeb8ac72a772;0xda729107ebcbe;0x88294fe986de;0x396bd1d7ac6e3;0x61fdfc703212;0x1360a0be958e];[0x1;0x14e74f961a784;0xf8e7cd0fc9221;0x2b323b258cd0c;0x46730bfa96afd;0xee96d2c240404;0x918bfa2d15050;0xa2d3027e964e1;0xfb4c0eefd35e2;0xe8e14e81c5807;0x1def17585639];[0x0;0xeeece2bfbcec0;0x5c7992690b3de;0x87a88f5b47818;0x2f86b7ddcaaae;0x518da7d40a0ff;0x1b49f1267564b;0xbd0c4122254c4;0xdc60fa98eb0f6;0x3127a8cfad332;0x61bd98ba74caf]])]
 [[0x2bddd5ca7bdf3;0x7fced76e7fed1;0x38cd17ba9d77a;0x2dfd8eb5e1084;0x9faf98e024258;0xde630a97a1116;0x79125f48cbea0;0x93ceeaae283f4;0x534c7a8d7e3d5;0x379783b6f5a];[0x50b09b583603f;0xce75cdb9ea933;0xf6907d67ac36d;0xf66ed70ddfd69;0x15a085562b902;0x66fdf4751955d;0xdb647f02100c4;0xbec950fa8f004;0x44edb8d7175ba;0x49e234d7ecf];[0x1;0x883df9eadb4e9;0x56edf145b9326;0xec38629379199;0xa71f27d5bb256;0xfe1325cd92052;0x41a638b2f84e4;0x97cb3d37e513b;0x3179ba1ba766;0xcbf0dc88dc7f1;0x202f962af7c];[0x1;0x8464927bc824e;0x494113d8e2653;0xf40a2b6665b3a;0xf44661bb4fbf1;0xf732a25ebbe26;0x117af853f9ec4;0x735904975c3cf;0x1880486f548b6;0x69995d75db828;0x1594a40b94cf];[0x1;0xc4a5c451e0799;0xfc01899ba6f12;0x7a19088c19aca;0x59c9b2c017142;0x92a4b93068f3e;0x99e268996b758;0x5dcd3e6e2ef12;0x5be0c5a3bbf44;0x3f49d62de5d35;0x2c0cc14cb8c5];[0x0;0xc5619a9dda588;0x71c85cb63b892;0x76649627d863c;0x69a5089901fc4;0x69ae7c59b56ef;0xf10e194186718;0xca0aced5180a3;0x167bc0fc493a;0x190d55b97853f;0x6e11aa497b264]].
Definition wit_512B_64_3 : colwit ipt wit := mk_colwit (V [0xc751e3978410d;0x12e61712ed452;0xd5533edcfbe4;0xcd5228f1a2a96;0x54a85ad2ee042;0x8158f812b6208;0x586706a45e5a4;0xfb70415df1028;0x97b1b58a63017;0xe01cba950b] [0x5342858d32925;0x362a9eeb36995;0x9a63dfc848cd1;0x42419d84f944b;0xe507c058c9eb3;0x77b49d137ab5d;0xbec1f2e2f8223;0xb26fe191e8e07;0xb4dc07adc2487;0x4c026a6fb5c])
 [[0x22c697cb669d4;0xcffa26be44f51;0xff5b9d7231a7c;0x28fc545a637c9;0xc92c0ea5c94e3;0xf8d3403213abb;0x4c57bc975321f;0x33a218579af8c;0x970a1d86100c6;0xdb402f9f85];[0x822d4ac66299a;0x1f9a9a009caf4;0xea3a71453bd3;0xe683e14231fa8;0xf020e89bf8a12;0x942bd539bc625;0x7ee6e1e54c3fa;0xf4626331c3f04;0xbd3381cbfaa88;0x66075a8184e];[0x1;0x9fe4be0684304;0x61fbf14c95fca;0xc9b1754c75d12;0x3b8767045a2a1;0x78fed7fe4d102;0x9a4493537caff;0x47945d28fb2c1;0x6991bf7b97b91;0x6cc0ba8bfbff1;0x5948dd6fc65];[0x1;0xf494b1c44a490;0x7707ec8bbaccc;0x3f9d47a099009;0x844ceb8995395;0x59358e9f82b8f;0x6a1190cbd061;0x3e595fd1ea675;0x5d53c19be58f0;0xe668999cff721;0x257cf8754acc];[0x1;0xac43fa3b37690;0xdd0e8e9389f94;0x1e9d1b63de519;0x2022cd71ee056;0xea76c54545cdd;0x841b17f9db9a2;0x7bb152f1c3c76;0x94c9af3d77ab0;0x5a72a092fe81b;0x1ff5f17fff60];[0x0;0xa2a00979f40f0;0xfd48720b5d37e;0x43222d2fde8d6;0xfd1d406306c86;0x629cc97b4470d;0x531e4a2ffbaad;0xc423751f685b6;0x295db8a4ddb2b;0x6d79d8185da70;0x1a75b6e9827e3]]
 [[[0x3b89357d3863a;0xa3bcb754c1130;0x7c2d3cf9ca280;0x2b90b6f9df009;0x7f879818c47b9;0x969d0093a21a4;0xe03c9c7c87dff;0x6cd0b195081fd;0x5740948b95a10;0x58d3dd8f051];[0x1;0x68a916eb227c4;0x7e372555de7f1;0x853c8d7a5c45;0xb2eeb5f1a518b;0xde1613af7cfd5;0x3d5012a1a6987;0xf959417059e1e;0x6071e94aec192;0x9397f1aba2bb8;0x4f6e622b6d6dd;0x1];[0x1;0x5127fbae6a8e4;0xee4e4f87f82e9;0xcdd2bf4523a20;0xebc7e835a2b32;0x1b39ca164b0da;0xdbbd05aac2da8;0xd76c3a405d8a9;0x939cc4641928d;0xb7ddf849df655;0x1b06b5f8b98e];[0x0;0x67cb5c19e96a6;0x3f2afff4ae15;0x797bfe3f3b3ae;0x680b9b5173a3c;0xfbffc19e8b6e2;0x76585dcebb7b9;0xcf4d41124ed9;0xf771e10e19535;0xe75b1faceb558;0xb11160ab0a6ef]];
 [[0x8fa64f7ac0d8d;0xcf97c815f2b11;0x748ca6126792a;0xc2fa2ee701348;0xe585dee82eb84;0x78350d83733b2;0x4ea6d5c440fc2;0x993094a7e4c08;0x4b3f2a764995;0x3510007f9af];[0x1;0xfd367c98921ec;0x6ea09df788a78;0x5f9553a0bf60b;0x37f822d16ca73;0xcf27cd6d5b058;0x399e8ce2ba97c;0x561c4095210fb;0x304f5f73f0bd6;0xf3d397f552ced;0x96e9461674a72;0x1];[0x1;0xdd7c8ca44c299;0x2715df5d7c3bf;0x15885e0999438;0x6d047e21daea0;0x5227b2417ad44;0xd41699a468509;0x67149a0db7abe;0xeda648847a0b;0xd8c0df9a102db;0x10ab37bd1e62];[0x0;0xbe6ba1a37aa7d;0x22b23adaa4206;0x95bf8208246e6;0x67459b49a852a;0x88dd0a75d1ba2;0xefb321d4ecc23;0xaa44c84c0ba84;0x8db7a706ef741;0x985f938ab76cb;0x697e16b43b7ab]];
 [[0x36fd5e7993cda;0x458efb527901f;0xf9bca9fd20ea8;0x868713b996e5e;0xa411622fe3794;0x8fbaf39ece605;0x8777ec11727c8;0xb62ff6d9ac101;0x41812db21256e;0x64044191fdf];[0x1;0xeeca8db2d1af8;0x6f54b7e3d65a3;0x6c5e651fd13a2;0xd4aa138abcd7a;0xd2d5abafd600e;0xab319757ef0a4;0x1b5f1ac6ae281;0x9871a04b404da;0x944c731b99001;0x38b397c0bd31f;0x1];[0x1;0x31d7e22194564;0x82f679c42cc8;0x9ad85b4ebfa46;0xaea405e23bd54;0xfcc427d26175c;0x11262f6b93fb4;0xd0123c383b85c;0xaabcb627b73b7;0x980ecb6bc42e5;0x5f7584111ba];[0x0;0x3f2253911b7a2;0x2b9dca405f656;0xb58adced776d7;0x2a821d62f494b;0x37edbaa625a00;0x44e8ac4ee0a1b;0x87949ad496e2;0xba9a88b61350;0xf5ffd4a685418;0xc7295936d3e7a]];
 [[0xe64ced613d649;0x1315a71fba1f0;0x61c3823b3bc28;0x62e69077a8895;0xed0c7c0b32d3b;0x7d9e53d56aeae;0x394cd5961c018;0x78f9578825c5d;0x6740b1d8f559;0x4ae9ff4903f];[0x1;0xa3048594c6d38;0xcd25659b3e18f;0xe36031bcdcab4;0x7ab18e85d829f;0x94d59cf4d25a;0xa15fa4f1e2202;0xb62dd9fe12501;0x1713c79651f4;0xe22de893248eb;0x6ae4dbad28922;0x1];[0x1;0x48c876d6bed41;0x3f6ac16d7dad5;0x171761f17572b;0x2c84cbc6c4692;0x73caddb9735;0x9d4bae7269cc1;0x21fa5798ff41c;0xfc1611a61e5d1;0xb62e618738509;0x138986aef12e];[0x0;0x4a1a3919144a3;0x8889f09019671;0x8f9cf4e94b7a9;0xacdd2b30a81d2;0x7230e58d1aaa6;0x95c1d57856153;0xcebd8a6117f09;0x518eeef3301b6;0xb99733cb64d02;0x94a0a85a4b8f4]];
 [[0xb208b0eb9deb1;0x9a0a2b8a538ca;0x92e9b2318f0a3;0xc681e4ef249;0xcbfa654f5d727;0x6cc4fc241209f;0x6f932a5c04079;0xfd6760abb919d;0x9ed2465b209d0;0x6c1fb8878fc];[0x1;0xc701d9c52498e;0xc8ad38ee97a3d;0xd1e50410f89b8;0x55c1f3a6cd6ad;0x5bc4494c6f7d3;0xe9ac0ac0578c3;0x59621660378c7;0x544581c20b77f;0x5d6fa69b665e5;0x288ba2c30fcea;0x1];[0x1;0x1fdd7984641d1;0x8879dae3bb1cb;0xd6abb6d27500a;0x68841effbf801;0x1d8a0e13cc5bb;0x2090e0c70dcfd;0x44faaeeda145a;0x6413157d1a3e9;0x240cc9dc13520;0x1799babc4c27];[0x0;0xd30dab1859b91;0xd9ce117c420d2;0xf38c24d7f78f4;0x7498495ee052f;0xfc3064eae4c57;0xc19cc2ec5451b;0x2e1140b8cd5c9;0xd2d73bf550791;0x8e61986b0c956;0xd7e7774ef7e98]];
 [[0x50a3724f45eb6;0xb07b7b3328762;0xc349da4382536;0x23311d473ce0;0x1944576374207;0x1b365acd011d8;0x471cac7a010f1;0x8c5be85c32080;0xb6d96503b50f;0x2d9cf0fa67c];[0x1;0x9cbccf88743f4;0x591e75aed1658;0x2311420272e66;0xe6cf1fc9591fb;0x61fef71e0f801;0x6db4600baea51;0xaf1f63296fe86;0x2b4744270bbe1;0x7d71300b7817f;0xa6412a9a609bd;0x1];[0x1;0x96fba8f4c2924;0x20b4cc520a2b7;0xc957acbfc4b8b;0x546e07ade8fd5;0x89ea90d3818ee;0xbec4f40f2a1cb;0x9f327d441c0a;0xd0e1046e4a727;0xd7048fc36498e;0x121e142e3bc9];[0x0;0xfbc9515280036;0x252266cb98875;0x8d7adf0278371;0xc2d1ccdc1dfc0;0xb09f9fe6053e3;0xa2adb371cb190;0xe2a4c4db09bb1;0x6b8a440e1509f;0x29dc72601086c;0x5b09949a384d2]];
 [[0xa95247074e439;0xce3cc0e37952c;0xf2e7ba8cb2c9d;0xb9250b6afd1fa;0x1fdd881fa501f;0xd1fa8b8a75f72;0x4cc7124a0d5f5;0x4593da8fe2efb;0xf39e572a53d76;0x69061715117];[0x1;0xee9a854389de;0x39120fd5f1991;0xb8264e90c6a26;0x144929784f668;0x1ca68fcec0df5;0xb8d13d7c1042a;0x189e8b34b620a;0x466e7bcdf5ec1;0xf1945ef57d86a;0x2ec55a750c919;0x1];[0x1;0x6babf3197f321;0x47fc0fbdfe7fd;0x99a96d06d3a23;0x95bbaec565ab;0xe8de3b46dd229;0xeef7982349f28;0x4e8c77445dd30;0x22af7fa40d3b2;0x5ff2c3656f09;0x9234a616627];[0x0;0x100909e06b32;0x310a5b6cb620c;0x8066d11f56b5;0xbba43b3dea1de;0xecb087554ff28;0x21f491138c5cf;0x337a14731c9df;0x5ca40a1951661;0x99fab2141b11c;0xd149207a8f9dd]];
 [[0x12f2d1b922156;0xcae1e94f7473f;0xa7011672d39d5;0x5c72ad0df5ea3;0xf1e9812f62409;0x763da89f2e1fe;0x5a244697a67e3;0xb7b8a82b1cefb;0x80819df6fa553;0x635c4d49242];[0x1;0x27adb580e55e;0xcd28fd065314;0x5e779da375c0b;0xb3d5da3ceb8fe;0x26ded35dfaf8b;0xd141cbe6a0cfd;0x8e6a296a661f9;0xc1ded59aefbb7;0x381cc7719b040;0x3a0cab3a96512;0x1];[0x1;0x1929208ce90a4;0xe708455087da3;0x7d9ae2152e3f6;0x6dcdbdf5e5bcc;0xa3aeba212570;0xfcf63bd790058;0x634b9d535e190;0xa463880ed9078;0x6090548fc5124;0xcd8b37de92c];[0x0;0x2a077ea155158;0xc1abd127a4d7a;0x415890197fea6;0x27ca639c9ee83;0xf2586362af82b;0x27dc1a1aabb6d;0x1edab9a5e185a;0x858797d7efc9b;0xe78d3f2d09c02;0xc65d97e949c74]];
 [[0xc938d51c21403;0x33e25b3f1502d;0xbdcf2436cd1bb;0x54432174bc967;0x67a4e7e6d8fa6;0x4bf76d8d3343d;0x1e3fc9aafae3b;0x37da9c499bf59;0x9d43103ec2a0;0x2e45d94aef3];[0x1;0xb1e24914aa21e;0x856c187de5cfd;0x7addbf4d660d8;0xd21d2911facd6;0xce10b1c32b2ac;0x9b7ca089075c4;0x9cc5a00d6185e;0xe2f6ba0077cd1;0x2a6f249112201;0xa4bc345168f9f;0x1];[0x1;0xe2e678c24a4f9;0x92ee758844893;0x2e3a4f0d952ba;0xa385ada67e85d;0xd5238011f848b;0xe8f5baf8f775d;0xfee355e65511f;0x74aff6595ad1a;0x6bfada184866;0xf676536f504];[0x0;0x59e5711bc08a2;0x1e96e1b02e14d;0xe04122ebcc22a;0xcc1d4cc6b948e;0x1a2e5e0d2a54a;0x54865bdc45456;0x742c682b7de98;0x942360c97f0fd;0xad498b361bb81;0x5b9fd7ba6e289]];
 [[0x68ad52dc1c6b0;0x7da16cc8310e1;0xe292da3c9a1b5;0x925ed9b6dd36;0x57fb917a634d0;0x4dcfd2ea79e1;0x6bfed08aef9df;0xf26b7672fa36e;0x9ad45f428f274;0x4c2c2f01a54];[0x1;0xb9c7a960ca070;0x8fc42674a13b9;0xcfb92f9d6f892;0xb517df37e1606;0x2493d770ade5a;0x1ad13fd2962f0;0xcd503c6788267;0x9cf3102a586fa;0x7a2bb87920446;0x682aedb4d56db;0x1];[0x1;0x7daec9efea900;0xce47ffd99c388;0x13c07a43303df;0xb099591c34f1;0x2b84b8c968a8;0x6af1d3ba99c07;0x911571e046a39;0x550e3d42929b7;0xec204518f1824;0x7521722feea];[0x0;0x408ce98d591c0;0x17cb9db0cc07f;0xfea336670a3d4;0x5da8742a53dd5;0x7222d9e1d85d6;0xd731e07e85685;0x3a8d23956c837;0x26b3bf78a757;0xd2cace1f6a320;0x979398558c12c]];
 [[0xda64d58588480;0x3964159e601a2;0x1b3348c1fac0f;0x31e3d8f26762;0x55a57b5970cd1;0xb2e8d5da364bd;0x8c59bb9ce486e;0xdd42ff30e81c6;0xf101e7c943ba3;0x4a33f4adb1];[0x1;0xd333e0a7ec900;0x20755cb26309e;0x48afe39f1bc80;0x2be407b36d5b3;0xff4499bf46657;0x1db7d5b779f6a;0x5a3804f809b16;0x14c3dcaf8fd00;0x3e9c1cb33ae37;0xf7fdbe7a0afe0;0x1];[0x1;0xbf09699b04000;0x1019b15375adc;0xb4e7131466cbf;0x46af37dd09ce7;0xe6fd891be0d14;0xab25ad620c5a6;0x5d1f446599944;0xfd287c2fabee8;0xf90edb0b08add;0x5c9d67cf1d8];[0x0;0x20df0bc5d9680;0x5bc3002000012;0x2ff50b5778ae7;0x1ceab319f5939;0xfb41be4e4b5ee;0x914c39002a734;0xd14a7deaf32b3;0x20e0e476f984c;0x3a611b5054576;0x84e00de31876]];
 [[0xbaf764efe4e1;0x3baf8a929ec36;0xa273ddeaf4178;0xff03789a90e29;0xaa3f8b2d9bc0f;0x5f3244961c66;0x328aaeaf3920f;0xf4fd5d925f768;0x13a83ecd10f93;0x5ef9f25ab3];[0x1;0x3cfe79130d1be;0xcc8cfe3f9df0f;0x8dad9c9fd83ce;0xe2652aa8dc613;0x926b75571665c;0x857f10d415fa4;0xb0c8c8d77665e;0x5998ee87b86e6;0x38f88e584fd01;0xf50618f1fd5dc;0x1];[0x1;0xc43153c19f331;0x472205787c556;0xecc3793ef7a76;0xafa163aaf131a;0xbac0bc103e845;0xe19e0df337a63;0x502ea68af8370;0x4e1fb16ba094e;0x4bcea7e2c120a;0x62994912241];[0x0;0x501973bdae3f9;0x2e51bee49b42b;0xfcd873b598747;0xc63e42cd9ab44;0xc4e7311241453;0xc643c0fd9e742;0x6d2db2500e3a5;0xe28a4af73d91;0x999d91935e7cc;0xa67d442d9970]];
 [[0x86d0483348633;0x6e71287224335;0xda9341967128;0x6e5cd2047a01d;0xc292fd27028a4;0xf1363f5133bed;0xc088e37163359;0xa8ded8beda157;0x374d2d4a6442d;0x3394ce5c0d4];[0x1;0xb9620d3f5152;0x788af0d52bb9c;0xca1c0617fceea;0x5cf57fd466981;0xc9602c72aad12;0xe2d05056e44f2;0x19ec54884bdc9;0x3a702a0561e2c;0xf001c20d198f2;0x9966c8583edf6;0x1];[0x1;0xc03a467cf6919;0xa1dc16fb10c27;0x1bd2834bb8461;0x7270b1eebce44;0xe3e4aa03195b2;0x3ec85f8dc26d1;0x3789ef2d8efdd;0x2242615d88ef5;0x8b2173104d5f7;0xed19e4fe69a];[0x0;0x6d2033f2e5740;0x460296b74a117;0xe7cd5ab4d8606;0xf90d58d8e27da;0x3cd4bbe7dc52b;0xa6f0b07907f18;0xcac0e33b606e3;0xb7e2d7ae197d0;0xe78bbdeb54fc1;0x66463210cd4e3]];
 [[0xe357b7c6740db;0x6dec44aced515;0x6c851b53211cd;0x2d00ad93b9ee4;0xf5094799c2b40;0xfd9ba568ae10c;0x9d1c1d939d738;0x650898a8c9564;0x57f3b0c1ebbeb;0xd93a8a50de];[0x1;0xced64685111dd;0xf2ac0bc4db01d;0x8e6b7f01b80f;0xb59a5ebec0e51;0xa88dce1d077cf;0x4263a18f6e29b;0xc080af963d8fa;0x51ba0efae5462;0xaac9234d54c1b;0xe6504ee2f3194;0x1];[0x1;0xf08c8d58b2b49;0xf883f3e10837e;0xe6c599c8f3501;0x3ba50caf1f700;0x33863ae53b2ca;0x9516ac04bdeed;0x305764c783f6a;0x23b6820607422;0x10e0d9e9678db;0x1462370d1d25];[0x0;0x4da5dc36751ef;0xb9eada06a7af7;0xee521a9433c79;0x64a512833eb66;0x5c7b6e8872137;0xe26a8c25d9e7e;0xaf9894ab8ccf6;0x92998552351e;0xfc53f954a2a86;0x1a350412d4df6]];
 [[0xa96023055c0c9;0x4130f8188bc93;0xd433e1f0a99c9;0xaef566035f8ef;0x557aa75cb939;0x29ae6d7a429a7;0xe33b517ef0876;0xffb25cf293a34;0xcd4574bcef46b;0x66f33da838e];[0x1;0x98574d1f0a7c3;0x2234d7c89a5a9;0x1f9d337e96c90;0x53fd73d204bcf;0xfd5da4bbc2400;0xf3fdce65bbf79;0xe26498ddb4436;0x3fa4217716fc6;0x563fea99233c4;0x327649ef34c32;0x1];[0x1;0x84c80c8bb9a41;0x71323d1d99501;0x5b23f6e85eba4;0xdffd688c4dbc9;0xd1f98b52604e7;0xb6ab8d5ff50a3;0x825adad34f33b;0x31e00184763;0xdeeabf030172;0x70aa5f15cfd];[0x0;0xa1d95c123e1e9;0xcb7d06390c126;0x78b1aff97d3e6;0xb51d32c5d4296;0x2b6926b17b411;0x94e78f6501be5;0xa71d8a313ea5c;0x3f4ea3c401a99;0xeb9f89565b43d;0xccf44a1a222f1]]]
 (V [0xfe23f26994de3;0x77aa39bc531d5;0x20d149dfd5193;0xdce4effb32954;0x945f95efcede0;0xc061a6a235873;0x5701dfbf911ce;0x3f9560f22e8c6;0x15ef635dbbfc0;0x452555e69b0] [0x3686cd63a862b;0xc4f153653d11f;0x7270397a4559;0x212ccf6a1ed77;0xacd9380cda7af;0xf281099d98ad2;0x3c57394b57997;0xc5a7e018caa66;0xce5375a0a91e2;0x3f4e119aa41]) [[0xafee724bbf351;0x5b0ada189e6d7;0x9b3f826aca717;0x3ef71970e5518;0x5e68a0324411e;0x7544da15d1da7;0x70a9a331837ff;0x76311d54908eb;0x6c41470c57484;0x1c5252d0b74];[0x1;0x1d7c184a75640;0x58f145d82d7d5;0x6af98d8ba5b57;0x489a42a14f286;0xe6472ce5e7b02;0x3a0a46b0c9cd3;0x42a7ec5aeb352;0x642535bb84c14;0x6cc9572cded65;0xc8332d601dfb5;0x1];[0x1;0xa18ce2dc4f711;0xfb3e10328a90e;0xf23f0dad70b8a;0xc5f64a41007e0;0x188d9308b5294;0xdd97fd5182652;0xa44fea85397b5;0x50bde621bedc0;0x704ab4ecef3dc;0x1cb793435869];[0x0;0xbb27b86bb5673;0xb7092c34d4c6b;0xadfc786ad52ac;0x15b78860366f6;0x7a66bfc2c1e71;0x672852457dce7;0xfb4ec21c3a5c8;0x947db4584506d;0x490b7a76e62b9;0x37ce8dd915c2e]]
 [((V [0x6957880051b6d;0x20c478f613fd;0x86bba251d523c;0xa6eefa1eb4122;0xc5174f3a3191;0x9c9b795899cf8;0x9c2ddc9e7c709;0x287e57c275717;0xde5e5dcb08485;0x174e98fd6c4] [0x5d09d3edff47a;0xa547717108ad8;0xff69d313ea0b;0xf66fc3a9a06a;0xf71529faace05;0xb17c73a029afc;0xa11e247f7523b;0x4a4e4cfe4cc9b;0x5c1c802bc985;0x2c31dc815af]),[[0xe636ef80fb872;0x4b18623e7cecc;0xa71ce599dedfa;0x8d2623a54c505;0xd7017cb27cd1;0xf0910e90f20e9;0xb072a59b3162b;0x3bbccd09bdc81;0x9a8c9cc993af1;0x13524b946e7];[0xa0b41a9f87f4a;0x32be9636914a;0xcaa2d77b9f120;0x8a082cf559dbd;0xe4395a79dbc2b;0x3774dc7e4027a;0xf85cab1cd26db;0xb159fd34580a8;0x45e687c4f8801;0x7bd8d41adcd];[0x1;0xac407b7297039;0xbbd105ddbe9cf;0xec885f75fe25b;0x9ccff0da151e;0xa0e6d799434f2;0x9910d9056617a;0xad3fe21ec4ce5;0xcde137aa2e592;0x3c05105756be3;0xd2575cb5379];[0x1;0x9d54f39bf5b8c;0x2b4bec8c8b924;0xac83153f9ab7e;0xbc1d13404dfde;0x241d447446e5f;0xcd8c0feccb4e7;0xb4d06b6e5864e;0x2dce91871c621;0xeeaa3d0922f8f;0x2d3f8649e67a];[0x1;0x8a36bb62d8c84;0x3a21ec9102d5c;0xab72bb52a87b4;0x489e09276d7dd;0x9098e90ff3249;0xdf5fba5aa3dcc;0x8d4854ea64e1c;0xa5557672859f7;0x70011fb080a0e;0x14047e63c310];[0x0;0xf7336a41b8aa6;0x9320e6a0e7f98;0x5430a146ec5a7;0x70d723579cf7f;0x126a6bc4f29ea;0x492763975b83c;0x84fbf888c2853;0x40a8a65c3090e;0xc737183c7b242;0x25e7d4f0e6008]]);
 ((V [0xcc63e4a96d27d;0x3697170a1e45b;0xeb7fb0cc54f82;0x26b8a46c00626;0x9310bdde3d93d;0x61f3e6e0f7ccd;0x1885a2ce78352;0xc3b707071634f;0x32d49a53817d2;0x5796a135062] [0x3911147121986;0x5de7cd0d94695;0xa6563088ebcd1;0x4a91c9ee1e7a9;0xc6a3b2ed5bdd0;0x55b55965e9439;0x28e2d25321cb7;0x92cafc073fbaf;0xf960028b07990;0x5d1863774a4]),[[0x5e03b1cd20756;0x389cbc07c7ba0;0x7c54bdfedea8;0x5bcb01272d518;0xe78c7e0333c6a;0xc3b6e37167f1c;0x64e989a127e08;0x5625a96966f72;0x999598a186367;0x746c8e9ffae];[0x5ebb231fa7258;0xe18fbb8261477;0x4280982376cf7;0x365a8c8d14a91;0xd37ccf89650dc;0xe0e7607088bf4;0x5fb071354cfb9;0xaa01b36e77b15;0xfceba28c5ce7e;0x735790924f1];[0x1;0xec7079369a359;0x5ed4e05f7df76;0x64cbd170ed42;0x9a74881159853;0x60946fc6d89a4;0xd46cf9bbe5882;0x5d8766035feff;0x38c30c57117db;0xbc8ee0480d610;0xe270b1e65f9];[0x1;0xb3bbee6000278;0x24e65d2f98f3c;0x6d304730ebb66;0x38af8ce6167b3;0xedac5805a1f90;0x18abd686125ba;0xec3bd8045850c;0xe838408879ca2;0xed3e588b4e5ac;0x263a80d22313];[0x1;0xdc41989098a4;0x8dda65db4160a;0xed18fd7dae3e2;0xc909f821424f1;0x63547a57c68b7;0x22c933c45fa8f;0x5ca2e439087bf;0x289b3cc306fcb;0x3655c175b3637;0xa28287cc79d];[0x0;0x5dc0338e9bcb6;0x15a464d4d41cb;0x18977d1933c2e;0x9cd72d38106f2;0x6464e29f2bdb9;0xcec5f5150abea;0x170587884e643;0xf4840f3dc82f8;0xf6fa56e2c911d;0xe8007d82caf0a]]);
 ((V [0x6e82e4aa88c77;0xbc34b7d84d8b7;0x60407b1e00803;0x614f09bf39490;0xa54315c6ceccc;0x846e77de7893b;0xaff9c5f0596c9;0x559df86924a3a;0x41bc9d8c102e9;0x9c5a7a342b] [0x3bec3ceaddcb9;0xdbdaa7a0b00fd;0x8b24a2b663821;0xecbbc093ad6b;0xf81a005f50c6f;0x767ae276c85b5;0x69d08d658919b;0xeccae1d9f85bf;0x3a63727632c48;0x3a1d5cba240]),[[0x9067af45a111c;0xa3f424809cec1;0x2c667b41161f8;0x6362d2a92680;0x1e38640d8d6d9;0x7f495cd6d430a;0x56ce8f3952e77;0xff46d3d1e54e4;0x752ebb7bf03d2;0x2193a392c6a];[0x18459cd994923;0x87e23869a2c2e;0x7ad6e7b5abcd6;0x102d5742d0f03;0xbf4a0ce7f477f;0x73505ff1f4119;0x205e652ae0f8c;0x7f4cc9ecd773f;0xdb5ee0ff25b1;0x22dc3c9177a];[0x1;0x10e2b9b6d6df9;0xf0af84ae6ccf7;0x3e4790c7084af;0x34dafbb6d6abb;0x787e5f98b2239;0x83330bf41ecc9;0x52019f19d755a;0xfc6692fd8f41f;0xc0953ed70b500;0x9c904bc3b9];[0x1;0x63e03e13f4450;0xaf143c261cf08;0x408a996bdbbce;0xecd9dd5939368;0x38fda077df55a;0x1c402d6fde0b;0x7f3d055b63e91;0x34a0bdf91a750;0x7dab5b79a0e6c;0xa052162b378];[0x1;0xb97375feba210;0xf1b3d7bdf74e6;0xd8b4d0342778d;0x565bb4acc8c7d;0x1021025120fee;0xd8a1c59226287;0xbc3a77c6eb8d5;0xa714f5c3ee535;0xde365bd05d76e;0x169170978695];[0x0;0x6cbd29f9c28f4;0xac94e2245853c;0x2ac7c3e1cc03c;0xe0d731e5cd7b3;0x5826d3fe1ca2a;0x499c824187bcc;0x1f806b665ed14;0xfa25ee82024c;0x10a3c3fd0d82a;0x422ed8ea84c36]]);
 ((V [0x60b99b70254f;0xc5758dd3e01ff;0x449aea77345e;0x74658b046203a;0xdeb417a3f5e79;0xa2465cc44b8b3;0x42eddfc5f12f0;0x17b15c0588842;0xdf458baed9181;0x728cbd3c06e] [0x62e1ceb238f9e;0x69d34a3979e54;0x5f993afecddb3;0x9c73156b086c5;0xe8a771dc8c536;0xcf3990331adfd;0x1b6eb585147e6;0xff4bd0c979ee4;0xe77874a96f82f;0x56692649cf3]),[[0xf7575fd59b1da;0x58f65456ff796;0xb6b487f1e21d4;0x49f5c6eefe38e;0x539cf113a0849;0x5e2b397c97cd9;0xe22337deee50d;0xc4efdf937a59;0x5f3c6e9146445;0x15c7eaea31a];[0xe2318bb30d881;0xcb042dad6afbb;0xcd487f40f09c6;0x829ce71d14754;0x1df4fcf0e25ce;0x77464586bf8cb;0xa7297e3ae4d8e;0x59045b1462c33;0xbc25c9f8a0824;0x426ec34f680];[0x1;0x79a6c870403c1;0x95e08cf1eaccf;0xc08551099fb21;0x5fe9f83008314;0xd2a4a1667a7d9;0xaa2e3f2e8ce8d;0xb6598d9872b04;0xe7559fb4ab33c;0xc21554d8800;0x841e89d4fca];[0x1;0x1277fe55a09d4;0xe984ce4612abb;0x2c27fae8e4f0a;0x1f957a3a8d2c5;0xc70f58f00daf3;0x4b6c42f2d3a9e;0xbc213f73ea48e;0x99650859044af;0x497fa1db91d32;0x17ad168d3063];[0x1;0x3b5a339934964;0xd59793b56c04f;0x729df6041976c;0xed8e9f1f74d31;0x2c0459056d14a;0xcc10e6e9322dd;0x419a7c279161c;0xbe685fdacd5af;0xd91d538934915;0x1087b47b2210];[0x0;0x7211e7878ceca;0xf57e4067fab5b;0xafe72a83f32d;0x811fa8ace4a44;0x5c94fd526b924;0xc02bb726dc484;0xc04f9bdb813d6;0x958165dc9c462;0x3e6327d38ff45;0x2a72bc69eb4b4]]);
 ((V [0x2779b85adea58;0xcaeda598b23a7;0xe1713aedaca12;0xb327e4c5d3127;0x6cf69c350dc72;0x72a1c3a9da0ce;0x4c7a7da806abd;0x607701d9de61;0x20f2cf6ca9d70;0x5386997f0f3] [0xcce5f4533c706;0xc47c917982f7b;0xf5d7acb4e1b5c;0xa891f6b9ec6f4;0xd920c69088a3d;0x72ca1566a3d47;0x750bd3c1fd784;0x2168e663d4b38;0xff4cf6917d66;0x2835c684d0e]),[[0x83081f5abf33b;0x28acca41a24b8;0xc3c6f97770722;0x9bbcc374895da;0x883e340ffa14a;0x7687dca72e029;0x3064cff6b0301;0x4ed4a2d429d67;0xf99d57bdee910;0xc799793cf1];[0xb00cbc2ec9b06;0x4a7334ed850f5;0x7a34f102596bd;0x8fc389a4f0e80;0x990b950146a76;0xc3cb1df9b6408;0x5b7b80561b266;0x8328ada3dc07e;0x8109c14e326b0;0x2ccf288c06e];[0x0;0x73a0a5866c62f;0x6666f6bcc7f99;0x458202f64705d;0xf60d279cc71ac;0xc1b47d753b4d1;0x815674c0cc390;0x37418ec6a68a3;0x33d0b2827e19;0xa43299a54e9f5;0xce4fab9e99];[0x1;0x6ae7e04327794;0x1721cffa31241;0xc8c0c9007a27a;0xe730ec9eb4eb9;0x4933731982d99;0x481a5113a3c5e;0x7de474d9fb448;0x4925c42982b72;0x8022cdb467a7f;0xfc0310a6478];[0x1;0x24594b9071b89;0x685e543f42e8f;0x978551d2a60b6;0x4d37c3ddb9025;0xb437f8c0454c0;0xb04833ac5d7a0;0x8c4d9e37c6848;0x8e66e259ba8a5;0x303c85fc23fca;0x27008e8013c5];[0x0;0x74f795976189e;0x78c1bcdf3f69b;0x7b402a9a1ca21;0xbf4474bf72080;0xf24d6e1d16a30;0x23091c735f629;0x855542889018e;0x55a99083a540d;0x9b214f4a0c23e;0x180570f1795f5]]);
 ((V [0x3e62a64041559;0x9977f11c76213;0x68432eda09cea;0xcf09a60a1852e;0x208c8791612b0;0x342b10efb564;0x332016f9dada4;0x59f76069f7701;0x98dec22f3c6b2;0x458c487a62a] [0xe5463261a13b0;0x777dd1191ef7f;0x91d692262756c;0x1a1dfc4a0ee4e;0xe02bdb0da27b3;0x1e72978179524;0x587ec2a92097e;0x7781235041145;0x74ef231fc8fb5;0x2cdefe27c1f]),[[0xa6a63c804096c;0x7d346545af00b;0xcf0b4d70a0bcc;0xaed389a8bd4d0;0x91bbcc4b5dc77;0x1db9bdf26bfd2;0x141f9885f35d6;0xbfe774b381540;0xa0d60ed751904;0x6eb690c47e8];[0x475a6dc59e223;0xd12de4ac9903e;0x51d30adb2c2c6;0xc9205601cde41;0x3286d426541f7;0x30425f00dd154;0xf64d8669146dc;0xc87187a4faf3d;0x4594ec7cadcbc;0x7cbd4fa9248];[0x1;0x179ea60a7a40;0x829fec4df1a9b;0x2c4e4b8a4db76;0xf9f44f3fdab5a;0x9003600a9e061;0x8178a4744452f;0x97734e9abd0f7;0x254facc6cb607;0x9b7aba3f6d2ba;0xc2f982b7673];[0x1;0x40766ab886010;0x8aa2518602f64;0xf81b289f4e035;0x7cc384068ed04;0x2d726632d664f;0x23581e63538c;0x223ff1eb20c5d;0x50921f02191e2;0x9f94b18d41616;0x2a6e0bce1978];[0x1;0x470ef202ec490;0x80131b9de8d11;0x84f220b6c7248;0xc4b82ec5544bf;0x5756596cd9578;0x37381b5766d82;0x50754e96482aa;0x1fe920cc89030;0xaee9cdb520ccb;0x1797029baf61];[0x0;0x22f52714da18;0x6ce2c5dc3794;0x96ae7ae4e1d10;0x108ee6447f704;0x5aa7e89685681;0xf3c57f3e4c01c;0x714c09f485c8d;0x515b871b09d0d;0x1a040bbf99ae2;0xdd3dc59dc2b42]]);
 ((V [0x9f977ac591d51;0x892ef660f6a17;0x46d9b27f25b73;0xdae3c54e7d9fe;0x333050d0d87c8;0xbc48f4e53710e;0x29ad8a04f1199;0x4c20bae8ae12e;0xa46c372c50fd7;0x151e99003ac] [0xe2d51b36d6a5c;0xbf7f513666f3a;0x7905094e40c92;0xc8f7ffbcb177c;0x23f632790abbf;0x7699d15fb2546;0xb6e2f32783690;0x5ba8f7688dbe1;0x1b9c536f80fbd;0x302ab286612]),[[0x7cff35bd82b6d;0xbb1e756685362;0xc030b3c52cc44;0x494785d70f650;0xcead860d6a435;0x47ae018afa0f6;0x76c304145d891;0x2f0dc38600ef3;0x590f2dc449795;0x22f3396b999];[0x91fae74723a14;0x1664b15df542c;0xec6e217eb7e88;0xd3f25905774b1;0xdc87679fb3c3a;0x823d069003706;0xee3e466446d1b;0xdcf9d560b7735;0x3b41817c3c461;0x18db34b0f83];[0x1;0x13029a3463361;0x73ec743229b6c;0x28b413659e077;0x3a3381533c215;0xf5ec410d5bf92;0xfb7a27747ca1;0x4fc21e4773507;0xf4273bdeb55c5;0x6a444065f8de8;0xbec917f494];[0x1;0x17a38d53575e0;0x2cacdcb1ad5df;0x11793149e46d4;0x2c1ea98a4b181;0x9fa8b6d31b3e3;0x3ad1fa7066391;0x44018932566aa;0x8634082d67eaa;0xc1808d6ef0972;0x7ca23e31a85];[0x1;0x4b3a2f73b4359;0x9417415a0b7d;0xd94db445bc17d;0xe6c4a81b39cf7;0x117444a2c1fe8;0x21c15794b0e9;0xc242b555234cc;0x2ae1ad8e7c2df;0x5fd175ec99603;0x136e34f3cb85];[0x0;0xe0f57ee4b2c85;0xdc6e785d151b7;0x88872f691fd96;0xe54c29b265e94;0x1bb600b583ba0;0x97decdbcd7e8a;0x55c272266b56b;0x1a54529a51310;0x52e28cbe5f4c6;0x455c8bd7d3a0f]]);
 ((V [0x5a3b27250343a;0xba2b52df99eb;0xa5be2cdcecf92;0xaf89ca315df5a;0x8048f10858206;0xa70bc5b71420c;0xffa8251b1f172;0x82677c3188e9b;0xdfd2849a24bf;0x53f3ee831b0] [0xc7ce46c1b2af8;0xde6172e2a40d8;0x3723649ad68b4;0xf36cefd233ac7;0xaa7a874637fc6;0xf887041ab1d79;0x5d8f448a0356f;0xcb20deb37dcd3;0xf47501fa67a2d;0x45a3bf82458]),[[0x721f7bed5bee3;0x150bcce608d23;0xcedb47a40e553;0xccc7c9e4bcd39;0x4b5c8a839643f;0x805c693d197b8;0xfdec42b5fe844;0x7ba248eab5847;0xc7919187b28cc;0x2b7f0b07ce9];[0xd8fa49e335f36;0xc6704f22f3ca8;0x20616b985fe03;0x6042d5525c045;0xea5af215ad74a;0x46d9fbecba333;0x64a9ed7a2fbe9;0x5b799801c5c96;0xed51fb0e438a7;0x723ae5b7721];[0x1;0x5d045d5ee4b11;0x35d6e6c60dd50;0x3db21247e6d49;0xa267758f349e8;0x896162fa1f738;0x122f54ec342c5;0xdb03fb5ed0bc7;0xeb2a4d0c9960d;0x52faa68562d94;0xe0f9b9ea61f];[0x1;0xf9b73fafff8a8;0x46cbf2f37d825;0x75c5057b4e202;0xd8d53cfcd11c3;0x7281a03d8b9ca;0x26eb379d7e517;0xd01c2828b776b;0xa83978338c21c;0x3c5c548a18e15;0x28ca51552e9f];[0x1;0x4886a6e577639;0xe155c836a5ae7;0x475978e066712;0x696fb765c19e9;0xb4c67b6106e2;0xbd66fcd9d94b4;0xaf8e6d93afbc2;0x9d765aa7edd49;0x862d8de9b4109;0xed9a6785fde];[0x0;0x7eab2ab17a24e;0xd24f9600b68c9;0x1ab9d919053a3;0x825243175ea5c;0xa79f12e8fe0fd;0x57cf277828047;0x9069b041cd216;0x74e962b2bc6f3;0xfca0aab9cbbaf;0x56289e2ec4c08]]);
 ((V [0x63f497da3b5bc;0x34bac7f237b24;0xc68e498be2119;0xa7c8be7960c8a;0xc0d7660987697;0xb2a4488084718;0x651f56aa989c4;0x9fbda685da4e;0x9231e9c0d5a7d;0x393a17df0e1] [0x8668a7ad27bf0;0x158b396b1894d;0x7f6eab51339c3;0x1ace0c4026f0d;0x8940c955b7d56;0xaf03097eefda0;0xc36f2c90b38f1;0xcd649b7d81cd1;0x9629f73958563;0x721863d7d0f]),[[0x4241aa60149f3;0x3fff3a495e4d0;0x94efa66bd6af3;0x58715ccf66ba2;0xd8a92220a7186;0x13f2e9cff4250;0x14d6707b31f0a;0x8320cf999df31;0x2bbcf4ae09055;0x4c6255c9d8a];[0x1c7700f978a55;0xd9643dd355f9d;0x58503a91e3d57;0xcd8055d055165;0x3ae2e2c687841;0x96c754e7981ac;0x8c145db4bae9f;0x16061f6fcf1d9;0xf49a1dac6cd51;0xad0f59a665];[0x0;0x16335bb97ff1c;0x49408b8fd3698;0xe1db554666fff;0xc194b1932d379;0xae513220107a5;0x3a5dc2fa9322b;0x21993357c9a5f;0xb3b263d173486;0x12907ad8d24bc;0x216e3efa908];[0x0;0xadd3d6024f230;0x803e5e463ba67;0x1ecbaf124a609;0x717df6426179f;0xa1cb034fd7228;0x5811b367a5243;0xad399868b4acc;0x6528125db37e4;0x120fe677d1954;0x1237b1e2a83];[0x1;0x819492e954f99;0xc07dd8c0e59cd;0x61f28bbab75f9;0x695af75274099;0x888d8963effbe;0xc13edfeda604d;0xf4c0c96135b8c;0x10fa9810b685b;0x17b4d9d02c57c;0x194aed85f406];[0x0;0x5a000eced82f9;0xd92bd172dceca;0xfd9d42072982b;0x17b562767c57d;0xee827854124ca;0xcb1d74a59a64c;0xf547ee57055db;0xccdf8304ff75e;0x412ca9db72a5e;0x97b188826a3be]]);
 ((V [0x6a701176ad6ee;0x3249e686a8bb2;0x88bceb36459c3;0xfb2b8dabf49d1;0xaa7bc081dbbdf;0x8114f6c2849cf;0xf0ad9c436c637;0xcfcdf9ce07d43;0xaca8c38c111ed;0x54a2cf7023c] [0x10709f86c2835;0x1940b9a712f3b;0x65a49bc97bfd4;0x8772d68647409;0x9d0d409fce66d;0xccfe806af345e;0x7cfe1d68a05ef;0x24955e8182b31;0xc2ea6143b827c;0x5a921a63100]),[[0xbe2cb51cb95d3;0xc3dab094e7cfc;0xd9e9120b47af0;0x81922cdcba8c;0x4ca21b18e915e;0x5d16af6796b39;0x172544bf7ece2;0xd3eba281aabb0;0x1f5861e92bb27;0x1fcebd04202];[0xdccd4bd29ffc8;0x976cdc68e2332;0x2dada0eb55b7b;0x29d2fddea90e8;0x5742d7614f251;0x118ad36c34c4f;0xdfcaee1fd561a;0xa762715c304f9;0x5ecc1aec6ec09;0x23c2d4449a3];[0x1;0x1364b38725910;0xea60a4472746d;0x6af335a0b8081;0xc0d0900d2327f;0xd6e05d85aa80b;0x4bd6a60b3cb0c;0x3ea1f1e429a01;0xf1c8a7044d92a;0x501b01d11a406;0x2defd0e8e54];[0x1;0xd86dd22cb43a0;0x5b9da368a2159;0x523790dddd901;0x78ca907674f47;0xaf3464fc46807;0xf0fa6d9cf8b1;0xba6da8f817991;0x75f0f66e11f7a;0x9cf3e090f5935;0x9ddc99c653b];[0x1;0xafc4215f60ad9;0xbef794f2535bf;0x6bf72ac1f6802;0x60b07fbd98acb;0x9a186f0b07b1b;0x7e4140903cf8e;0xb1d84e2bf7961;0x5b70b0f462120;0x412514ff5a46d;0x186468ce5040];[0x0;0x2ef9d4c9f5fa9;0xa15460c4a4afa;0x8dd79de2e4b81;0x8868641e33a5b;0x313fd6a98d4e6;0x7611409262e7;0xdf0c10c51a140;0xc36f6e26af292;0xe84ba74ea56fc;0x3e1d242758900]]);
 ((V [0x1b4743c1825c9;0xd075a63d38f97;0x8f613a9620d08;0x8f6b806a121bc;0x7d58105f9c42;0x594f57b4b6a49;0xbba824164d0e5;0x44b8b80db60b0;0xf44c54a6a00e2;0x388ad6eba92] [0xd07ca678e3d5d;0xb5935ce2a6a1a;0x8dcfe0bfeecd0;0xe4ac45cf2c67d;0xd8d41198e9afe;0x27b6ebf773880;0x9a3469605de26;0x650a324763ac2;0x9f7a54cf6e366;0x22060a532ec]),[[0x9fb7d6a25e7d6;0x1b4ba799c62f7;0xff0acd6088048;0x9445efb3df548;0xa3f2426ebdbae;0x1c99f619bac99;0xacde5e9f38437;0x264dc52478fc0;0x7710f8cf50fdb;0x6b569c7e332];[0x71a161e65c275;0x8aa93318c0903;0x647837a841a16;0xd38d2ff45210c;0x365c35cda3f90;0x73c2c0864b6f1;0x57084c0b75284;0xefc209535549d;0x69dc0f2dd83;0xb5aebe3c3f];[0x0;0x36db40c9728fc;0x5f39ee671f7a7;0x8b66949b7a92a;0x1a042fe70563a;0x3f820ef3f5e45;0x74bf22e1debfb;0xcb6ee3009c695;0xa52cb6ce31f6a;0x1cbefcf897a36;0x2140a7920b2];[0x0;0x3d2a47801a124;0x365baf57dbe2d;0x7dba6d8e2030;0xe7758cde0e894;0xdba973b694557;0x9515ae44afa7f;0xf36c15806f624;0x49dc79176e5bf;0xb6ede1a7520ec;0x53c54e9134a];[0x1;0xd646d59d24ea4;0xd94984817fcfc;0xb4287a600728c;0x4d95f6fb55612;0xcf2b33ea4f1af;0xdac74e55705a2;0x8d38a57a7f1a5;0x8f5bcfac0dc03;0xaec989d9b3139;0x1699de359db1];[0x0;0x7ab86ccbef5c8;0x930c81fbd8a78;0xf56e0b6d8ce1f;0x780d075227987;0x4b4f63a9981d6;0x1f8ec35f29f77;0xef1a3afcbb483;0xaf37482c5a3d8;0x1f2de32126f0f;0xd636ee5baaa59]]);
 ((V [0x7b5877f69ad59;0x2e47f1e286058;0x45ef73c6bb218;0xa6e134d3331bf;0xf7c277307deea;0x5eba1b25c17e2;0x59505b9b5ebc5;0xad06b8606cd61;0xcb0aaa48813c;0x455399c7297] [0x139219f2a5440;0xf89aa54d1f27b;0x6a965afcad8f3;0xe32e9b1c0f5ef;0x181b9132cf35f;0xb60ef36941ee2;0x5f7edd8768fd0;0xc5123c37b791e;0xa3141b2b0c399;0x2cdfbcea5c8]),[[0x9b3c2710a0cab;0xa51ef3ba7cc7a;0xe05ceca45de0f;0x19bede3e10fe5;0x76c079dc93803;0xf43bee611a405;0x831c73667e001;0xdf314c8269daa;0x4416b131ceb42;0x15407782437];[0x3605c1e5d2a21;0xf30e17fbe7770;0x618dcb4cd1de;0x918c3898fb912;0xa9c911fef7546;0xe04764ef408b8;0xbfb92340b3e7f;0x8bd315ca6d419;0x4ba7919b16e1d;0xb9994f5ab];[0x0;0xb43681ebb6bbf;0x9bb4eb2739c15;0x8bd8db958a290;0xfac731e3ff7ee;0x12561ffcad91b;0x58ee45796cd36;0xd24f8a5a08cd2;0x1ae4d7b7fe28e;0x264bcde45716a;0x1786e00853a];[0x0;0x857e0827a54a2;0x470ac1af85dd5;0xd19317d0ff837;0x23c000401cee0;0x8068684057d0e;0x7227182930747;0x2c3b75e154c19;0x4f59d09fa2222;0x74e2b59aee5f;0x6f2a919f9a];[0x1;0x779c24e85cc29;0x6303c544ea5be;0x7d0d536bbf234;0x480284a64a67b;0x9f72d8c0f1304;0x3c77ca35a89f1;0xa331534a26707;0xd522b80b9d4cd;0x455749f8c54c9;0x1694b478e47a];[0x0;0x677b44560a4db;0x925b7dfec4a53;0x181bf4899ebcc;0x15770592c7079;0x4fb8fe993cab9;0x5523627db66a9;0x1e4f5eb74c4e6;0xbd53581b9ec3d;0x93a557b1b427c;0x29f6448d44fcb]]);
 ((V [0x883e8aa4f57f8;0x1986c31133b07;0xb6a3cbac34e97;0xc1f23a2a8ef92;0xabec78b98339c;0xef761c30a23ac;0x966a487d2bcfe;0x5264e42823131;0xbaa6ea5e8d5ac;0x5c378dd8ee8] [0x88e1acb93f914;0x69660c45f5e78;0x408279432b3b8;0xaaf21bb69747c;0x1247327e9363d;0x1bf3a0cc6cce5;0x9ed0d9e0523d6;0x707b6e8ddbd77;0xed3113df63d2c;0x3a02313bd90]),[[0x65c2587826266;0x9d7c78f8d2b11;0xdf622b2415e5f;0xec0b1c9dac2f2;0xb2da74da4309c;0x2883627568c04;0x6d9c8ccdb094b;0xb50c9f5981fc;0x20123e306e2ba;0x3c3465d8933];[0x95332d161a2e3;0x9e4502080d300;0xa86acb83e9c95;0x1c02c5fdfc38c;0xb3c5189239bbe;0xe57a602b7565a;0x79cf578b6180d;0x365b29f0fff6c;0x6c751df1e8b2a;0x3b4c164ca9];[0x0;0x42318c991c9f;0xd8af371027de4;0xdf90f969b7753;0x4055cba16640b;0x94a5d0437a962;0xdff55a6d6b718;0x638cc70c56d4a;0xd0c07c99a4f2b;0x91f7fa0b564be;0x1e22d59b4a8];[0x0;0x53e14c2718d00;0xf93ee49b48538;0xbccc226e4d2a2;0x2e9f6dabca623;0x2b28c8a24b46;0x315a86361e705;0xfafca8c596d59;0x7a652cfd6b80c;0x8790f5674a473;0x13f9f5f1661];[0x1;0x2c51ebde5ac64;0xc3a8ac8b3362e;0xa768c71396315;0x683c175cc66e7;0xd4c828d30c586;0xe4104583d72aa;0xa7c09e8b8f1f0;0x50952555aaa43;0xad099071f5c98;0x1b16c4de067d];[0x0;0x73cd453c4b920;0x5221c7722ad7a;0xedc34cdd7fd56;0x15a983e0b496c;0xef357984a59d6;0x6450075fdf16b;0x369637042cfd3;0x980436351193b;0xf592ad2addc3;0x77cc78017876d]]);
 ((V [0x72f2972c2943c;0x1c8b46418617;0x58d388f9e3d80;0xb56766ef27101;0x278ea2b2e8a35;0x87311e76f8e63;0x9bb20990083bb;0xdcd30cca1dd8a;0x87ff3967f3e0f;0x5082e5969d3] [0x2a40eb8e8af8e;0x6f4f35124d71c;0xe5fb34d80115a;0x9d86f2b273aec;0x53f8c64581174;0x1bf8cdbdb1e46;0x2510c6bfbf4b5;0x9314cbc295af6;0xb32af07893162;0x4aa2e625f74]),[[0x64fc4ea97bafd;0xc00d733f66cd5;0xa57027638d3ea;0x3d9441d4f4f5;0x5ea0c4e9d708b;0x4431a57b9f690;0xa3ace33932ac1;0xd46112efec700;0x5fa0b3af53448;0x4ef15bffc17];[0x1ffcb3ff6c844;0xd4364d4b49043;0xb0a8689de5e70;0x5ffeb41de7a2e;0xb4cfd68914e15;0x1373674eebdd6;0x977517221d809;0xf9977eff56fb4;0x455040b681ff;0x6442f0227];[0x0;0x17beb11f523c0;0xed2b8b3fdf830;0xf6e8eba0600c0;0xdfe1b134a83e1;0x71ae9d6668dea;0xef7b9382e32fb;0x7c1d115671f17;0xd0221c6ccd948;0x697978b933864;0x41a76e2415a];[0x0;0x87d132ffb6af8;0x3d422aecab65c;0x8fafa9ad3429d;0x747d187912704;0x649e1d52f5837;0xe17e5dd8632df;0xbb64e6f109dce;0x3d270979ff531;0xc9b617173dcc5;0x4533de04755];[0x1;0xb3490e5296af9;0x8c92ba876e0c9;0xceac18e15a3cf;0x3e3bcfd958cd2;0x429601089581d;0x417e043bac6f1;0x8c332b6b3a6d1;0xec08a4338f87b;0x3ba88cc7e8864;0x1e13413548fa];[0x0;0xbfc2e348186f1;0xa6129f7c5277d;0x35f32c31541b8;0x73585ae805cd6;0x206aee3a296a;0x65bcef2d77d0a;0xbbe8303cf1f3a;0x18cc5327f4ed8;0x95b1c62226590;0x9d2f9755d6165]]);
 ((V [0x34f7ebfcc52a9;0xfd10927ebeb71;0x1779a37f01cfc;0xc88319dedad74;0xefded4780b22b;0x34d3a460956f5;0xbe661d6744d8f;0x9c6de35aa59ee;0xe5983fa2bb0ac;0x590d9a5e8cd] [0x3b7a886cc6d4b;0x8b6a5274edf0d;0x3935bedd3f29e;0x11bd37cc821d7;0x62cebb5b3334;0xb66c0d60ccb7d;0x67731ecdccaaa;0x97d6b1849f07;0xeb37a5b060e13;0x5a70a6424cc]),[[0x4d8f75d53beb0;0xe79b877b17ff2;0xe1315b38e62b8;0x8c19ff731fd39;0x1bde61d23c102;0xdb77037fd43ec;0xe86841b1827a3;0x86786660f426b;0x2e49d8b71a6ca;0x5d0ff01754b];[0xde30bf2bf533c;0x31ab32ea3df09;0xd2f993e5e719c;0xbd4c93c84980c;0x6a5403dcb5317;0x5fbb78f36889b;0x549ecf399c6f5;0x6e6fb608946eb;0x87a5d23894d13;0x634332a975d];[0x1;0x6d0fb13bda510;0x8739988c8bebf;0x9a96a589afd1f;0x1f24ded777cb4;0x7db9dde403507;0x50b0e29532672;0xf654606e3a6bb;0xf219d649fdc7f;0xd5e3e7ccdade2;0x93e2407ab16];[0x1;0xfb8ff9da25740;0x456064ea93d61;0x678e4fc8688fc;0x371eb063e90a4;0x77f9a73d7efe5;0x7f64f878293b9;0x56f2e8681ef46;0xd986f6db412c6;0x4202bc3db739b;0x1e70be35d927];[0x1;0xec43859c3a900;0xec52fab694965;0xb3b4a342a422d;0x6b1e0d865222c;0x5b85b5d2a3733;0x3bd5e907bbe4c;0x21c2105c3ddb3;0xc5771625cd42b;0xb62d44921cafa;0x1b07da0399fb];[0x0;0xe1fe64fb248a0;0xbe60808a4566;0x51d8ec9270bdc;0x42095f280c4db;0x66556e00d8503;0xd79b768c2f781;0xff1d9fb0b0839;0xe46df452fcfca;0x169d309cbc130;0xb92c932e501d3]]);
 ((V [0x6e56ab6d210d7;0x118f4be764b7d;0x90d55d6df9a55;0x9549f2c258db0;0xdce086406838c;0xfb3a1c6653310;0xf87897be47d6e;0xe1d19153f7160;0x13d8d3883e35b;0xc8433338f7] [0xfef6f89ac0729;0xe079db803cebf;0xa15c947f169c6;0x9592e75fb4e1f;0xcfd8392acef3b;0x42eb9cc68cfb8;0x7b58d6aacccf6;0xd591bf9445179;0xc1f5e380be457;0x696e0072591]),[[0x4e42fb24bbaaa;0x42c936126b901;0xe01643bce126f;0x3ddba3f6db1eb;0x6d6fd98a7d07b;0x6e2f39cdfdd48;0xe2f7eb38b8a61;0x7aaff4660ed10;0xc3b00f316b9ad;0x680fbcc796d];[0x6da70868d4088;0x55c7e9479da46;0x6d37f727970a;0xa555561e05a38;0xb82202531b74a;0x928fa3c49e015;0xa07c44591917e;0x8c08e14fa918f;0x661561434f04b;0xde3c820bc5];[0x0;0x5e4c824f48bff;0x11c7a8cf59da;0x21f431af4b865;0x22af63948b057;0xbf8904237684f;0xab2e095f04345;0xe56440f4bfca6;0xd97713ca40001;0x8d7c8174aa3d8;0x222d5bdc189];[0x0;0x9e3dd6d5f2c24;0x1ba76455b3e59;0x10119e699f4c9;0x432d6a3191a75;0x7e32f0513d6b7;0x7d95827cc2ac8;0x7c4237b73f5ca;0xb41ffc692fb9a;0xa902285fc74b7;0x3fb69a933e2];[0x1;0x35cd33fdbc0a4;0xb84f8facfcbc8;0xb08789564c2b6;0x9de7bd7184afe;0x49a9b2193a66;0x888284f73ca7f;0x9f6d7eee5c31f;0x50950796eea8;0x3234c4690bc21;0x128a53b2da80];[0x0;0x7fdd1532eae76;0xce79247355f64;0x4e99b82e5f089;0xf09a76b2b8424;0x113149045f882;0x750155d13539b;0x4c8459125e543;0x7c9ebc8c9e506;0x92e1d9924cff5;0xcf3e050b5a2fc]]);
 ((V [0xb1eb4705dfa53;0x3326f7467da10;0x8542516218edc;0x3df293aea4603;0xfa20a4f43a090;0x826530b18db00;0xdae94174f53a0;0xb8d198b572bbe;0xd6801e860477;0x3d9f68b9ff8] [0x4512feac935c5;0x35e30c217f77c;0x25cdf2c5d9560;0x5ea927f055669;0xb68c432e798af;0xd8d584169283;0x78954a1bda39c;0x9252bd63bf821;0xbfe885264e4a2;0x1fb3b5cacff]),[[0x3a4d429facaaf;0x80170f3ead902;0xdc806f81b12f3;0x29fd8ba599f3e;0x1efc35b66d2a3;0x79b434d7c90f3;0x7dd1116c2e98e;0x4844fd461a757;0x1169cc6d8b61d;0x102f0521897];[0x2944e6fce6cc;0xebcdab8717752;0xd3edc8e1b2af6;0x6d14bb1d2349c;0x75a65d93b1c12;0x699e6c3bb858c;0x8d80e1ec51280;0xb0a2bf9037e34;0xe25ade13a54b0;0x39d5fe04c34];[0x1;0xd50d356ddc501;0x4bc68614357be;0x80a3e7ae18703;0x999b93169097;0xb3d81c6b268af;0xb49fed9af759a;0xa3d62e6dd0b66;0xc1ee5feef672b;0x40b2f288e5f72;0x7272a9e62ce];[0x1;0x13ed44c84722e;0x3631fba70bb09;0xfc65b283e6c55;0x53291885923e9;0xa91f5cc47f3b9;0xb89a825214586;0x722314f6713fc;0x6482d1f8fe93b;0x97b3ae6b71290;0x1405afec3d26];[0x1;0x7d166bbda7b11;0xca48759891e63;0x1b25064f3ad86;0x704694acb661e;0x13565f0c48dda;0xa43e4874844aa;0x885d4689b445d;0xe8e95327f6361;0x4c6fb0a9b0100;0xab43cbb4159];[0x0;0xcb3404b218633;0xb18dcbbdf6712;0x8817ae2c8ded3;0x9f75c1940b58;0x783b062458dbe;0x3e295fbe703ca;0x81d5e62c51b2e;0x876837b6cfb1a;0x96c7f662e8909;0x1f55c06b13b63]]);
 ((V [0x3f4b922db61ca;0x2f9ae8fe5e668;0xe06bcde78c506;0x33b64c99ec9fe;0xd9c4026b813b1;0x52401cb7c588f;0x8ddad798f3dbd;0xaa134683ef132;0xc6ad527e0d3e3;0x69e0a6f1ff3] [0x5cf4ae0b0376b;0xdd7831e4d8580;0x4629e0bf4895;0x6a7084641fa08;0xcf7d6ccff04ba;0xda70bff029401;0x6fcc76cec8e31;0x5f59ab96f78a0;0x27a4c0ac68098;0x5c04a6a1969]),[[0xf4bc98e54840c;0x147be25729e80;0xf7ceee14e501e;0xa33b7e0ed859e;0xb142dba2f9317;0xd5eb67eeef59b;0xddc118371a231;0x2d1e2a29eddff;0x3bcd9d0288ace;0xc56bac0ed0];[0x4be769bc04ef1;0xbdcbc2d5961c6;0x2e787124929d7;0x4eb610b0f1850;0xc5da7726fd239;0x73fd1dbd85507;0xade8a47b7b313;0x55b99d853f061;0xfafeb0c9fabc8;0x7cae4c2046];[0x0;0xf7e7882353a27;0x6fd9c72cf7f27;0xafb53a93be059;0x591968bf31067;0x5e2efdba24a41;0xbff76fcafcc2a;0xa1d2b14f2c5f7;0x6e1b15c3d2319;0xd7e28d5244deb;0xe14ecd3c26];[0x1;0x8932c99bbbef8;0x31af9a6eff475;0x87fc29e2bc2a3;0xb2fb0a2592bd5;0x950be52542c5e;0x810b31ae45a90;0x4b824b8617904;0x54357ee0e7e58;0x9411b0b3d66ef;0x28a4b477f23];[0x1;0x408a334812f90;0xc757a3a8471a6;0x789d6b4af6e8c;0x21ad665e63954;0x19d1562291699;0x3df3b9e825049;0x1a66f902dfc05;0x3535dfbfeaa62;0x32ba08f32ff4c;0x1c90e7303cc5];[0x0;0x36a03ad045660;0xfd70e2e98b9e7;0xd202bf227974a;0xcdb5202fe4c44;0x3abdb11f82635;0xb4270f6ff21be;0x8b51ff71affc0;0x16819d4504a3;0xe4b3f51336c05;0x17be176985978]]);
 ((V [0x5f99ea6b75b24;0x47d7a74f19cea;0x299290e0cd25d;0x73aca2254e62f;0x4433a6951916c;0x5eddb08446fa0;0xe3ea93288d096;0xa356444f02db8;0x7b944105c544a;0x70856bd12ad] [0x1dc1955553610;0x4a95c541cc34a;0x606677607a596;0x18f7392e7749f;0x89aca3dfc20fd;0x7abf1a3deaf6f;0x887fa137814fe;0xffa2f4efba24b;0x466e5d12e3ca6;0x4139e8acc2]),[[0x92881fb233cea;0xab3e15ff940dd;0xdd56cfabb1e6b;0x46ad8e04fb8a9;0x73cb5b9b43579;0xa1dc7a29da18c;0x33ba3fb7d9e92;0x58ab632f567f9;0xfd2d850b25268;0x49573a84d41];[0x5152c4620746b;0x6438c6c7698b;0x7d3045e73fcf0;0xabafb7e333f25;0x1d529c1c8762b;0xa667cd3338252;0xea4a754c39b21;0x9de4e7261a13c;0x228f3f30de33c;0x3d62a532d2e];[0x1;0x389712b8f1324;0xa6f1e7d51ffe8;0xe14bb39dd88c;0xd6c0b5fe7748e;0x8dc330aa5d027;0x94dae6e5112f1;0xfd52b9f3a1d42;0xffd6e8ad9ff89;0xa67a2751557aa;0x23312e37764];[0x1;0x73d816266e7dc;0x40b0fce2f3115;0x878b70e450f65;0x12945ef874676;0xaed2139212585;0xd3739c8284561;0x376904db37dd8;0x9f2cae904ee50;0xdec012a342d1b;0x106dd26aaec4];[0x1;0xbba811217da4;0x17785a7f4544f;0x65e54b7c0f3ab;0x78e5a14fbd8b7;0x1d4e694e90799;0x20769e839d963;0x73882e616802;0xd220174b80422;0xb8c07ade2861e;0x25e87b939295];[0x0;0x3897240a6b6ee;0xddbf2cef72774;0xb944fafaabe10;0x81d9d9c04ea2;0x8ef5dc9911279;0xa9a320c413694;0xc44a1f452c4a3;0xeee9d35efeb19;0x6d7f93a41af99;0x9233cd3a85a9a]]);
 ((V [0xa623d0d95f521;0xf0094730e7111;0xece15dbfbd53;0x7b156629165b8;0x19448f186472d;0x8b25a72bd6617;0xac4c6664cd5f9;0xccbd720e3eb95;0x171d90d79486b;0x63e5ba660b3] [0x18f6162d3197a;0x1ef2dd306afa5;0x1fe711b09cdc3;0x9401a9ae619b0;0x5770a69a51a83;0xb2b96c60f1baf;0xcfb7e9b130e35;0x4a6e3f44fa639;0xeac7ebbeaa110;0x444bdcba09]),[[0x3f52e955437e9;0xdbb3feadbb90d;0xb415352cf5f51;0x3c788d28b029d;0xd5c6f61b87c7;0xe06ba6c5b0920;0x5b9876e001efd;0x6b95cf7e9c366;0xdeb6b46077fa9;0x7642f65691a];[0x166c03a3a4b73;0x46de3d9763860;0x6d8888a0fcf74;0x7244100f32bc4;0x1dd922e82cf10;0x1fa8bcc94996e;0x594b5d75a8229;0xdf59a4e61b560;0x5af3120d643ac;0x95ae7cd8e5];[0x0;0xda5ace2499bf0;0xfc8ac0000f765;0xd16b23847f9c4;0x53d638679ddb7;0xccf544843bd83;0x4025cccf946fc;0x294857bc50b8e;0xec399ace10374;0xc37907cf4d6cd;0x5034382557c];[0x1;0xcee0f42c46720;0x8327a5bcaafd4;0x391bf497f28a6;0xa6d0d21a98d3e;0x99dc05b49794d;0x91f3e4de4e80b;0x3554dbcf6e3a7;0x4fb9bbefc6816;0x2657cccd00cd7;0x3098fe95017];[0x1;0x348dc8ba8a81;0xe890b2944d6d9;0x1c1a8f216bba4;0x273924b355b9d;0x161eecb300c56;0xf761d0b76e532;0xadec46a718f1c;0x1b5b828d061c1;0xde8d8e44033e4;0x21c9d8ad941c];[0x0;0xe10ee3aebef5e;0xf50d9350a144c;0x8a1946e6eb689;0x8ff0474a984d7;0xf907c922f43b6;0x51e27991532de;0x8e1508e890795;0xc7d6e7cd5f484;0xb59977269ba2c;0xecf728bcfec30]]);
 ((V [0x1c1f8e61909b0;0x86fa4b86e4517;0x5b2ad28a3a559;0x30998da2c21b7;0xc9428045fb30f;0x75a8f8252caf1;0xa9fd54b106e54;0x6509e968a49e1;0xfac2b659de5a3;0x7cb1f53e6d6] [0xa33ee8bec34d;0x758e4abc1e2;0xc87a9519f3002;0xd280f1a5aeed4;0xc0833e1488d8;0xed9660934a474;0x588ac081b7ea0;0x9d82241c67086;0xdfe46ba2da5b2;0x4cca8d92e57]),[[0xd7a0dcf0c2333;0xea6afadc1b7a;0xb83c0dcba9908;0x7b5955c1b46ee;0x5aee58cea48e;0x7a8c91c6aa73d;0x78b10c981349c;0x26c198b5a4da0;0x9a696f9ca1c8;0x1d4b7ded4df];[0xb4b7ffb4c5c6a;0xa3bf6444a9ba8;0xb3ad1a1dc9601;0xa0764a285431b;0x75154d96db892;0x666a5e4bd3301;0x7b35bce1f288b;0xa4319063f5e6c;0x6449be71e7990;0x468be6fcbfa];[0x1;0xbab748d934bb1;0x1f852eaebe31a;0x132c083826bc9;0xaed791c5106db;0x5390b762d3521;0x1fca22a548523;0x17f75a49c312b;0x946ef281182af;0xb1e4f261a4d62;0x3f20d555a16];[0x1;0x572ac7f58c2dc;0xc211a94c2d49a;0x96bcfa8498b2c;0x6d128e8f8a83e;0x8866954bbafbf;0x9f72b7e9718c0;0x72ede7a651d98;0xda673888f3ed6;0xa2f59fac9c276;0x1a5533af7b80];[0x1;0xc27a22e991719;0x36158dc94437;0x537c46e8bff88;0x1b42e474b4972;0xdf25d991c307;0xe12accd92ff51;0xb2bb357b52b70;0xd8f968a97c9da;0x98fa18af82d9f;0x28246727f725];[0x0;0x7df464d9d3260;0x891d5c767be2d;0x7ac6e91c3948c;0x94b6a4e6d10cf;0xb26e280336af3;0x7647ee6596da5;0x348bdc1a17f69;0xcf7c21d1fb685;0xab13b97859a34;0x3a0c7bdc67372]]);
 ((V [0xeb8b927b90ca2;0x417a6718283b9;0x54468c0bc36c;0x849e9eb986c2a;0xab9dcb3bf91be;0xc93cf54cae4b2;0xa4408a1554df3;0xcea0eef3fa8ae;0x1256c57d3790d;0x6feeddb619e] [0xc06832eff0e2f;0x8a9c154680c43;0x8b919256afb19;0xff0b1fd79486b;0xbfcdd06ee169;0x5f03550615fee;0xdfff8463bc0dc;0x8d44e4b97ef15;0x5398fe27e0011;0xa255fe17c3]),[[0x5152aca8a2250;0x9244adc537aac;0xb25edf092bdf8;0xcad8502c4a76b;0xfb7c090560f7d;0x6f90bb6a045f9;0x7df83dbb09625;0xb91b80d6cb60a;0x20e6005b46913;0x1a2a6a8bd85];[0x44ea3cf040abe;0x37f184e745d44;0x4abcada46a4d0;0xcbf25cb7da35b;0xa28d987d489b1;0xd5ae00b60fc12;0xd3601575ddefd;0x1bae61f8c8fee;0x32909cf7623f;0x20a660e46d7];[0x0;0x8a4146cba3700;0x78ca8aca4ff77;0x3ec359bd41403;0xb745bd9707240;0x1336d43707331;0xa18c487f8b49a;0xb2e5fc20a15ef;0xc43fad8a04dbe;0xfbaace3cdaecf;0x382d00ca2fa];[0x1;0x723e849507220;0xfa0ed1cba2b2;0xfbb64b9c30ea0;0x708f8b6efad34;0xaa9990f9bbeb5;0xda52f6cacecb7;0xcc11b4026111b;0x76240accc4030;0xa8bb048922143;0xa4811712b50];[0x1;0xf1c7128e94900;0x62e483b3aad6e;0xdbbd10983538b;0x6cc3cd80414db;0x49e65195a6871;0xb83360d3dc420;0xd698afc2d582d;0x878280a9eafce;0x978c4ad2e1876;0x2cd4c470ed52];[0x0;0x87040d73247f0;0xe5d3852da155d;0x3a99b6d002189;0x1e351e8927680;0x9c832007a2f26;0xce93a5d4088b0;0x544be2fabb2bf;0xa0ed114526b6d;0x6963e08d5aa2d;0x33c3bb82bea3a]]);
 ((V [0x4cb3d37af03e3;0x3da15a117349e;0xc214f08d9a848;0x7c91708d2cba2;0xc0a0d24ee2ab7;0x9bd78fe683e6c;0x1ccf55600f159;0x170442deac9a8;0xde71af2c43f8;0x742fba7ed5c] [0x31a19a56450ee;0xaed17a548a122;0xe2ed238bc89c1;0x33152d48869c9;0xc47570b02ad19;0xeaa235595f51a;0x9226bf6340ae1;0xbc4fb4d1873aa;0xcb2a1ba43f0e3;0x423f64506d2]),[[0x84c54cbbf92be;0x461448c788ba6;0x7a39051c8652b;0xcfb5274814c02;0x90714fa4c6e3d;0xfd64f00037c13;0x443da88fafbbe;0x4f3576ce4fb87;0x60051ce5dc995;0x5de08bd72fc];[0x4b1d32758b7;0x1cda3e3ad0037;0x1c58c184892fd;0xf49965398365e;0x4fb2ddb9153e2;0xcffdfc201e53f;0x679d8c95c8164;0xfe43d2ec0632;0xcc78f3d45cd76;0x3427d53ded2];[0x1;0xedb02e0967444;0x980a3a548f413;0x9a5f2e44c03b0;0x12b3c0a7b060f;0x25698db6524b;0x3126eefbcd8b3;0x344ef6639d674;0x1488ab74bfcb4;0xf0084549a308a;0x66da432083];[0x1;0xb8eaa118f3384;0x2d23c1c7211ed;0x9f056387fc394;0x51b4bc2e29ac5;0x23b77a92502ac;0xcc582444a3b87;0x38583a91babe1;0xfe38a20c02580;0xdf214d6454130;0x12a0d172507f];[0x1;0x40378742efac4;0x29d1d5171692;0x409bf8a8bd4c8;0xb168882c8aa2e;0xd7f345b193b4;0x9408f958629bf;0x4b8081c3834f7;0xe15855b1a84cd;0xc9f9827c4816e;0x2634116b757a];[0x0;0x8b207e9b47c1c;0x916262e39a6aa;0xd2ed83c5c06f9;0x861af78cd9a33;0x1cd0152e1c735;0x51ba935d73f61;0x91d4120378c2c;0x59f0641ab1fcc;0xe3cff2d832375;0xbb83101b411ae]]);
 ((V [0x56a02f0da6775;0x8240a7ecc6d6a;0x44b2b1a8020e8;0xf40ed3f1465a3;0xe9964796958d3;0xb7f3d43cd56be;0x1a11dc47607fc;0xe38e793913ae3;0xe0a8c51fd7d10;0x2a980e96dbf] [0xa6a7d56791f02;0x67398fbd0c3f5;0xa0475826def05;0xfe46bdd50c688;0xc26ee1e4fd42f;0x228a35f9115c5;0x85def6566fd38;0xedccbdbfdfe93;0x670c25cca41e0;0x539936d8319]),[[0xe4a711c09d8fa;0x5a09943e8bb1;0x8c1e478f6023d;0x52dda19f17c81;0x5b0a0bd02b6a2;0x7afca6731f3fd;0xcbadbc04b1777;0x6c6e71055036d;0x3b0b36486b353;0x70e2425e17d];[0x6e743378d69d3;0x468a56f2f27da;0xeb3f2b9a1685b;0xcd04154592256;0xc31226945d040;0x2fd936835647e;0x48f6af7507f76;0x9e57046e9a588;0x2ae482f551ee2;0x3ba13955675];[0x1;0xd7da04a23f439;0x713723b4637fe;0xf651a1d78a988;0xe1543172677ff;0x5794416ec9e66;0x84dec667446f1;0xa00d1c9cd7f16;0xf177019b73108;0x9b4d836880238;0xdcbded8e65];[0x1;0xd330b67a0e758;0x85550c58c21e7;0x33c5529778206;0x89b5d9fb663f5;0x3c6edf7a9b5d5;0x8f690f16f6c15;0x72ea389b1b73;0x39b75b50f43ab;0x828953374b664;0xf0ee33e6aba];[0x1;0xe97abb6fa47e4;0xb215a9d051a02;0x2702201378e4;0xc0c376eb10316;0xec72bdff42c55;0xecfae3ad4a91c;0x1bceae583332c;0x5c92436435088;0xfa86025b15bc6;0x1c2618311e69];[0x0;0xaa8887770ce4e;0x143d7eb2b7f14;0xb0675234569ea;0x7fc20926b06c4;0x55e87ae0dc47c;0xe14f3eb9aba73;0x9477c47256703;0xeef5868a490ff;0x717bfb63450ff;0xe14a9c949b4f8]]);
 ((V [0xfa261e5622cd6;0x9fc905da6045d;0x5a4bcb3d1187f;0xc50f449cd9efe;0x3f197440ee6d7;0x78d5d83b92c2c;0xb663df526f217;0xd503a5ef64329;0x265101701d417;0x367ce80a173] [0x1a2855a8db6b;0x4e809317e4670;0x62a3eecb2c90f;0x74f575291590d;0xaa660878c0b9b;0xf2167989ba19d;0x480034d40fe42;0x31eaf6545e2d2;0xb45e9933002ff;0x7fa08556a53]),[[0x8b73869f1d99b;0x49d7f3fb896be;0x4aca303ec60d9;0x35da88a3cd436;0xc262ed65b4142;0x88e34f4cdc131;0x732e56c79e49a;0xcc6caed103998;0x91606566826ac;0x3208193ccb7];[0x7fe25cdab85ad;0x15b7cb2ecdb7e;0x4e17a719714f6;0x51a67a2573aa;0xb7ac63d7b990f;0xed011063a0f5e;0xbde1701a1ffa6;0xc427ca4fc4321;0x8a27b3386b54;0x1d2f7c556ce];[0x1;0x49680d4c87969;0x9c41c98d20568;0x369bfa78187b8;0x876560be05e76;0x6f54b884b077d;0x328ddd2bceac6;0xa55a344ef6a41;0xc7117cb45b36e;0xe301d9b8f1373;0x2c327a75316];[0x1;0xc125f2ba60bac;0x6c5fdd3502932;0x6e0859d505b45;0x995b74d863a6a;0x590682e8e8d5e;0xd418a4c20a2d2;0xcb0a1a3d28079;0x47bc42a39a3c4;0x77f94a156f430;0x6dc2a30988a];[0x1;0x324b20c7f4bc9;0x4a1073d95e6e1;0x4faa04c42d434;0x5f3be3b719f8f;0x943ad1e8b8f38;0x8ec9bf422409e;0x7fbd89855ca8b;0xf05b13267f818;0x30f9e701bcd1d;0x103cbb634f2d];[0x0;0xf8d76f1fd1726;0x2b0d984acb046;0x134ea5dc0f325;0x4acd08c478127;0x862c8384ed79e;0x239ee84db4754;0xf276db855cb7a;0xa3115da7937a0;0x6ede7f0625bc1;0x629720f4df1d0]]);
 ((V [0x3c65972b429a0;0xb7bdc16c68248;0x269ac7505b724;0xd57555a26d746;0xfc6e80f9f8ea7;0x595660b89d239;0xb4dd32f4640ec;0xd4370c5177b8e;0x66441277f43f4;0x47f2b57f877] [0xa3e74a76a69a0;0x21158fb11464a;0x1bcfcf7a76413;0x5975711e8858a;0x81678d42432ba;0x328558ab53afc;0x3d531ce68a5bb;0xfd94d4b7deb9a;0x87eeae417bf54;0x68edb575a92]),[[0xa86d2ee79d441;0x9e0147a31f6d1;0xd78dd37633696;0xfa9c2a7696a1;0xe948df838a187;0x3b15ab7b07a15;0x33f10c8d093ee;0x60f7687dd8e6d;0x154ca898053ba;0x24a6b2f27ad];[0x862ffe1706564;0xac358e83d8541;0x409f3c58238b8;0x2920c709fb77a;0xad9c806ea7deb;0x25a870396dc50;0x8883807983ea9;0xbc3230cec7dbe;0x8eadbbd922db3;0x7f3b3ab6701];[0x1;0x371e8da98eaa4;0xaa8a1cb24b0d0;0x193d3c64f5575;0x508bd724a1186;0xfe8b80b42ca9a;0xb4ffa006a3d56;0xe6c0c4a0cfb88;0x28bb06a8a6cc3;0xdc9ebc61feed5;0xe74497c1246];[0x1;0xa194d3f549ff6;0x5201b617ba4ba;0xe2868b33b269f;0x1c4964828a098;0x7c956932cdd44;0xde56b3aa13c8b;0x121adbbb1b5bc;0x23539df6f7ab4;0xafd70e873a4d0;0x2b24ca8120c2];[0x1;0x8f218ba5d91f1;0x8d263a29d4e65;0x7c3add2231df1;0xd31f34273350d;0xef6064e9a1e56;0xb3d6734ddc7a3;0x9048b48def511;0xf0ba51d439905;0x5dd2dbf24b818;0x15f5a6d65e78];[0x0;0x16373195a87eb;0x30b1b0938fe02;0xdccc13b8afc9;0x9fbd1e24c6fbb;0x842997b7c8ad5;0x36fc193b39530;0x6dcac9d79d15d;0xe5d94ffcd9ae1;0x2105ab3a3e19a;0x479bf043571fa]]);
 ((V [0x555dfc07242c0;0xccae46f1dd56d;0xd5314790ad4f1;0x540dabcb2f3b9;0xdeea5f0c65edf;0xb5fa1b664bee8;0x1e574a971ece4;0x8e1343dea5294;0x6fb69e7f02d5c;0x3d474f3a603] [0x3afa056a1c42e;0xb5a74dbf1d8f2;0x7aa0fb6adb94;0xd38813f84e0c1;0x45f9bc6fb2672;0xe4be3120acc60;0x7894ca470a463;0x6bee7f0973147;0x442e51b570db;0x5f010c07edb]),[[0x53a35caaed5bf;0xf62af922317f3;0xa35e1b55aa08c;0x7419591a02aa5;0x3168829772201;0x4a6e40ba0b7d2;0x77a3d258be2bb;0x250519bfd3fc3;0x797c0f198ed7e;0x28af3fc91c2];[0x1121568d61d16;0xa7b6b1003120b;0x7d6fdaf79cb32;0x6cdba4dfe182e;0x6398bda753a88;0x49938ff93ddf4;0xb71f777e72f2c;0x80fae6857f798;0x2b8e5565cbedc;0x5b00d6cff75];[0x1;0xafa79f8f06400;0xeb63391ad2629;0xbc5be523f8ce7;0x1e19a331d5c87;0x4950c45fc353f;0xbcb51eb41c099;0x6b504d463b136;0x8e13d45a7f576;0xab8bd1cb79723;0x8d90a00f28c];[0x1;0x8b1706c7330c0;0xeb9cf6f889e7b;0x34e157a2429c7;0xaa9aa37d6284c;0x7904b210867dc;0x2bc966296140c;0x2017596021bed;0xc3211bd0ef54d;0x5da3bd2277ce2;0x1df5124e65d2];[0x1;0x998884327df1;0x51b3d22d45d01;0x2368c77f3fe4a;0x79ad753f8dacc;0xb4d549e4ad733;0x70641b7b6c52c;0xc609588a696a3;0x4bafc46846a1b;0xc990b775d5187;0x18d6afca4a2f];[0x0;0xcf1a0632b149f;0xf842a3d0bbc6a;0xc0f26d9a96d4a;0xe756020e38144;0x3e5ef7ddf46d3;0xe3ca53d14587;0x8bc386ebfbc53;0x4b93fb5470bbe;0xa7a0dbab5ff8e;0x4ffab57aa2cc4]]);
 ((V [0x9985f10770962;0x5308ce316b9a;0x6c4d80942b4a4;0x4cf53dde219ea;0x5a039d2849dfe;0x5cef1afdf35e0;0xfa2528ff4c867;0x52cd1d8c7a846;0xc4919344003c3;0x13d4a11b724] [0xea80f452ef18a;0xa13fa86b53702;0x6698680ed8584;0xf2ba1d55738f1;0xcd9d996e31fcf;0xf6090f4910fc8;0xa99831315c81c;0xc76864bfec5e3;0xa6495c96be1aa;0x71d455ef9c8]),[[0xc698bee95b241;0x8e47672edccce;0x7777cba37c53c;0x1125031673fb3;0xc8dac152447e6;0x3165b422913f;0x115b04ca77615;0xfdc8a0172a06e;0x463bb387a827d;0x589e89f789f];[0xb1d4068c08ea9;0xbccbe416cf2df;0xf2c1db129cdab;0x4d5e97aed2d51;0xab100fc4bb29a;0x8a08983f040f5;0x68a4338b6d3f7;0x9b0089736f03e;0xa57aa1110e5b9;0x1817c5c2eb8];[0x1;0x7eef9f3469000;0x77167b9ee25f0;0xfb68cf1c5cf0b;0x98bc5bb0b9863;0xb48190cf36151;0x377ddb9909908;0x55c00a01e6fcd;0x172c15a39cf41;0x36150ef166ec1;0x12d96c481d9];[0x1;0x5822bfe0cab9c;0xafefe49b5b81e;0x1ab2d0762c9ff;0xa4a18e27e36f8;0x8ad622ad5a67e;0xb60eed0ed4604;0xfa5296d789508;0x4bc7e9e0d00d0;0x477e35cee3288;0xd01daa3384];[0x1;0x686be20a68df1;0x42599bdf0b7ed;0x32fff3fb2c43f;0xd046776d919bb;0xa493d5af8117d;0x5cf4c98ddf10b;0x94cbc0fa9e581;0xf561560bb9646;0x2215c3f08378b;0xdf6bbd0ed7f];[0x0;0x2c055cbe40843;0x9532cf85f4543;0x1d99152136116;0x8d272b9e11c2;0x48ee9d7e3dabd;0x3c05f88a4d89c;0xdc3280fe32a58;0x4c3f3cdbcf5eb;0xa8c88343d1ab5;0xb010b9e30d765]]);
 ((V [0x371a15e020706;0xc4791ec9a53de;0x5f0866f47a0;0xcc05170ac8456;0x73224dea1b4f0;0x25813097f4562;0x2b3efca7329e;0x7e6813a6b2559;0x3a92f37fe63d9;0x1e22cfb7f78] [0xfc4bad3c8ffd;0xffac46583eaf3;0x8aa7efe46b28d;0xf6e9b9bde7794;0xf4a4a277daa3f;0x19b90cda2def;0x3b9c3a0fc32a5;0x97a771348ad15;0xbf3028f81404f;0x4dd191ac87a]),[[0x4f71561c06d8d;0xf0e1e1bcc0e60;0x840f068aea10a;0x692f1e677be1f;0x5adc1917a2ddd;0xe5fe8bfb7293f;0xf598b7c268fe0;0x426bec0aa5113;0x6be7637d68aa2;0x5ad4a65cf8];[0x72a5dad75de8d;0xf2423886100f5;0x5e232895d63ab;0x3323d4a3a9de;0x7a990bb6588c8;0x3c41d20712201;0xd7bd6e8de8529;0x937eeed7b755f;0x61192816f70bf;0x13682abcedd];[0x1;0x77dd832cc3744;0x2ee938fd2f743;0x28e807848e51e;0x67716b9904162;0x8828abeebc997;0x9d143ed32de13;0x1a2c553218a98;0xc22ee77d0608e;0xbcf54ddbc7e95;0x23bdd46f400];[0x1;0xe623c59c7bbc4;0x3a30f56908973;0xd3aeb9befb8f7;0x26329dba3e9df;0xff79a4921b0e7;0x16beb8d1ec8b9;0xd9751f08276bd;0x41149052ab4f2;0x75b10d35a99f1;0x6a58336bf78];[0x1;0x26b5cb9fa8299;0x39d95e1f1c2fc;0x1246148a8c3ae;0xf4bd6f6a11e0a;0xf730766d6036b;0x2e8cdc5985623;0xb26051d290682;0x6dd409ebc7c74;0xeeeb88fbd82fe;0x8b57af727d8];[0x0;0xd4750093717a1;0xbbc37f9a1a0f8;0x17c4907bf0f46;0x61917e11ec20;0x4114c56ba2f21;0x20f154123ba8e;0xccf752e48e924;0xe0746724a4346;0xe3807dadf514e;0x9e0814552127]]);
 ((V [0x72ff589d94e0;0xeb4b245b62f21;0x761cdbf9236e5;0x2d8ec2fd52805;0x2928669b69946;0x40d803ddd151a;0xe7cf455832a21;0x2b63af2369a28;0x49e5693b3874e;0x76d2be79dea] [0x6c66ec0959371;0x63df809d0fbd1;0xeec160e6ba3b9;0xa75ff764ad0cf;0x237e33090334a;0xcaa6c7332bcf7;0x75389bf18ef29;0xb72e021345a3a;0x43242eab4f14b;0x1ff4761e34]),[[0xdb25fe54cf839;0x24b548eb67e11;0x9aadb7b893ec;0x854a94bb2794c;0x1d95cf4728370;0x856891a4d9433;0xabba72597473d;0x29fcb14d6e3ce;0x487a4c2e11d04;0x55b14aca82d];[0xf0355bc344e74;0x521f84de20a06;0x38f366dc7cf2d;0xae699c859dec7;0xa8c8794b38948;0xd61a6b58831c2;0x85af419c40091;0xea27dcbd5fe4a;0xc7f8283d064fb;0x4de698bfdd7];[0x1;0xec29b2aa0c7e4;0xcf320cc64fd55;0x965a2517d1cdc;0x93c6d0b7b8c83;0x53d4718bd21a7;0x59b7c04a02163;0x873a942ac1f15;0x86cbaae55e787;0x1bccf9200a786;0x94b4d6a9d42];[0x1;0x16efc1ee1a30a;0x6f2d9c556e08a;0xd3db085cc9606;0x29150df796409;0x37de5cdebeee4;0x74fd50a1babc5;0xae810d2e88d62;0xdbed5cebb3911;0xc0651312afbe9;0x16b35ac7e9e9];[0x1;0x889b746ce5b21;0xa2a97862dc6b5;0x7ac3d65d946d0;0x99f4c843d7ac4;0x1e0b496b9c53e;0x28f6cc61b5b0b;0x5483d8b8e2dca;0x9bb26113c3a50;0x61d0df86f720;0x12cd24eeda1d];[0x0;0xa6f99f5c16623;0x8dbfc9094b8d7;0xf09c12a710762;0xd89f88975250;0xbc6eaa130688f;0x55dad8bb5d0dd;0xf1d4d0e1d792d;0x58302b81dcb4b;0x334c48978b3f8;0xaadd45820c641]]);
 ((V [0x5ed3befa4c57d;0xb6059f4d85034;0xa883b2e4f9212;0x2be6214a4fc0c;0x974e135ec34cb;0xb9aaa96d1bea9;0xcbf51f9eb0698;0x5e5b49571f755;0x6726c54806881;0x7e57db7ac9c] [0xd0fe12b3fe3d6;0x5d1912184422f;0xafa897373fa14;0x6ed350ffecd1c;0x6a94a2b6dd8e;0xc9f92a927ccf7;0x5d2b193b88001;0xf740c7899db71;0x602aca5bed7d;0x2b6e4ab1695]),[[0xabb93b3a956f1;0x4dc08cfe88f65;0xf25ca6f4e0fbd;0x3e39b56451f80;0x6b179a3831dfe;0x4a217002061cc;0x6dcafb14bb2f2;0x7864af3d8bd94;0x58323f8e1deaf;0x1467f6344d5];[0x164e64575ac2c;0x57b87264ddf45;0x36844608bb741;0xafc02b62e584d;0xa89e826812461;0x218b128ba1a32;0x7929a19b04d3c;0xd33e186327ba3;0xf83df7bc652c7;0x14108df7d9];[0x0;0xe9574b3c27c00;0x596d2d368b072;0xd313c6a9a1073;0xaf0b6a45e712a;0x5c7e2c1b88c4a;0x978fb2b31148f;0xf33977312f19b;0x7d2d0a67d8713;0x549595d6b3c1b;0x6bcbd86bd29];[0x1;0xf680f4c987da2;0xaad514ac62481;0x5ab28bed31546;0x250eeacc5d499;0xf428667e3b902;0x42be976701f1;0x3e35ac96f70ff;0x603ea9b096ed0;0x9f7ac181612c4;0x6e330689cf];[0x1;0xae199aad4d251;0xf5230a18378dc;0xa51f0f77d72cb;0x954cb5c09411e;0x6c99fb3b9080c;0xafcc765fe34fc;0xfa59bb9ea2b6c;0xd136b9a89e2a3;0x710f8f7dde05b;0x2d4b9df7ca03];[0x0;0x79520b23e716e;0xd5c052d6591a2;0x3d163fd873402;0xbc91683f9040e;0xdb499b89bc817;0xdf9009ce96dbc;0xf311930656ed3;0xd269a74dc53c1;0xb820d90c1d66a;0x288846528bfd5]]);
 ((V [0x5655de80eb102;0xa6146bebd09b5;0xf8e9def9c89a0;0xcbcea2590556a;0x7d3d88c79b997;0x35fcc2732e79e;0xf99ce5c0c3b94;0x4db17a46cc433;0xbf249f7b1533c;0x303f9ceeefb] [0xfb90fce5c13d4;0xcd0d906f3e08a;0x5c2a18d83dcf0;0x9e8082e83d4eb;0xad35087420c8c;0x2048e2bf71645;0xef6362be837de;0x997156adac842;0xc234b5ca53cec;0x59f37327b45]),[[0xa4e7333b92f06;0x78b9a3823a4fe;0xca432ac58a72c;0x8846f4f25815;0x6ffc3225d6227;0xf14c8925cff6f;0xa7bdcd73e4ff2;0xbee755f045ef5;0xa90fb767f174b;0x5abb12b4c43];[0x9b8d5b4cca7c4;0x1053829cdc45e;0x3979478f5ef88;0x7a82e06e61bd;0x83d0d7ab5ed6f;0x97592b20e8815;0x3f9b3fdf46abe;0xbaef60514def4;0x13b0344125808;0x1b2e28447e1];[0x0;0xfe34875ae2407;0xafcc0ba725169;0x4ed6b24a10697;0xfa5d0cbf43ad5;0x231876a3b9a98;0xf9896a3743d47;0x906637f272a35;0x64f5290200aba;0xd253f39623eea;0x4658e3de945];[0x1;0x26d91b6172d88;0x1c9dbe7c471ee;0x75fc1adbcb790;0xae1920d4c357e;0x8553004f6b400;0x5fc751982277e;0xf280a4182382;0xe68c1dc05b253;0x12851d167b7e3;0x6582e59d899];[0x1;0x72da38e18a7e4;0xaf415100cbc89;0x66242812fbb25;0xc57739ac60c9;0xccfdce0bbe20;0xdf4c05a15ceeb;0x7937e71b0ebbd;0x5809d740ed53a;0x620ca79b16104;0x2198e841227b];[0x0;0xedd3a197d1644;0x37ee9dfedde13;0x2ed1972281e14;0x41870b0df301e;0x4b2d561637fb9;0x50681a152e904;0x76e78c11d139d;0x4d1c5614d5c99;0xfe8f6ca5c513f;0xb4fd782f5a663]]);
 ((V [0x6bfd0888eadf8;0xb82f79113a2aa;0xf5ac8eb455543;0xc6581a2c1524c;0x1cc9146e7cad;0xba02cc0e1ae5;0xb75b45cd23fb9;0x168224e012558;0xd2da39a323da7;0x5d0e1146b53] [0xb23d19de122dd;0x88163617af3d8;0xfac4bcd2ff074;0xeb751d35dfba3;0xfc2214880c5f0;0x2736718400ca3;0xafd1823a4d805;0x81e53bca3f10c;0x6da18682dad5b;0x4ad8377ad03]),[[0xa15ed4858ef41;0x2924474899dd4;0x5b8da1fdfa0ae;0x8bed1e2918866;0x1e0cfb81b55b0;0x1a26f9b8d3186;0x8dd1dd8497266;0x78863e0afecbf;0xe4162242c1a69;0x616929d482c];[0x6dcdab45f835f;0xa70411744043a;0x1e389b8d559f1;0x644f86fb4e993;0x278cf0b8eea24;0x3c5a4e429ffae;0x95f6cb4de4d4c;0x918ab15f2cfe2;0xbb9ec5cb89c0e;0x3bfbd2f28af];[0x1;0xa2c3dfca009c4;0xfa7217014ea17;0xb1ab40f222d59;0x6b69bb66fb88f;0x127995bef78ed;0x1364cb7219ea1;0x706daeeded009;0xaf697e6a0e697;0xe5abf5c5a278c;0x65c7d094a68];[0x1;0x9bdeccbe0cb28;0x8e6994a256344;0xdb4fb554fef08;0xccf622d048dcb;0xbc29a9b53fac1;0xdad27b47b018f;0x338a3c0694012;0xa1ccd538604a;0xb866915b8c26b;0xdefe28f3835];[0x1;0xd639f883fe7f1;0x95c45a27dfb5c;0x6683721e626f2;0x3c9769b905cc0;0x5661473cd4159;0xc203e8c447b6c;0xdc417ccdefb69;0x324df6682c334;0x76a551c8be26e;0x130f8dc7c64d];[0x0;0x6d3a0f7067f57;0x5f0ae8483bcad;0xf7a5cb17bcc0;0x351c787478ce0;0xbde534f42e595;0x57370ce125473;0x1ef15411c30ca;0xb8ac6699cda45;0x67f43f58d431;0xc1c80c396a9d8]]);
 ((V [0x1e4c3b202674c;0xddcc2c2456593;0xb3a36e595ff05;0xd122168e98d3f;0x94f59397e3ea3;0xc78c5607e280e;0x9c536682bd453;0xd66bdf60b7fd8;0x7c2c477cda229;0x77d65499adf] [0x117781a69ac69;0xd20480ffc0f93;0x6d10f99069856;0x35612b823c376;0x99deff38535d;0xdbeb9dae171c6;0xc6e4441859a7f;0x3e15402bb9440;0xccc77ccb84282;0x442ae21d673]),[[0xa5cca934c2c35;0xbdfd9a25e696f;0xe7be2a1047850;0x76caa6cda72a2;0x9b51fa4b35b9a;0x197db46ad7be4;0x9d1eb7df63d93;0x8c75172db6af4;0xd695ef2b39d3b;0x2ffcf002f96];[0xf7bccce4f957d;0x899db686965d;0x3072c0e3d5d85;0xce87be3d28421;0xdbb4563d94a56;0xa8303f5e689b9;0x60c773f69323d;0xc05ab064f2d36;0x8ace6a8e7900e;0x578d24fd090];[0x1;0x7d4f1531f7c40;0x5b3e0fc2d87c5;0xf90f08a4f5957;0x169d23fe5d7bd;0xa94741549e598;0x88b1a6d03e62;0x30096d8f66e8b;0xf7d49e3af5e1a;0x7dee61e4be152;0x6b73d75388e];[0x1;0xe8c94a7be7262;0x4018823fea420;0xb14320f4e02ea;0x84c1e8b356e60;0x1903bc22b3cf9;0x48e722488ef8;0x48eea40be313b;0x5b282908d0d4f;0x8794d0194ab6e;0x1d5304927473];[0x1;0x6c55c146c28e9;0x9290626ed8d43;0x56a0e0a0dc81;0xf0592103e3489;0x5299f5e3b8e78;0x114a68ec6ddcc;0x65f70c6e31b0;0xd94ed95cfebd8;0x69c7abbb14ba8;0x251e73a3933f];[0x0;0x9336347f39459;0x491d83c9953e1;0x3c87ef2f5c6e6;0x68c19f4fdeb39;0x23c35bd94a368;0x26c0470015896;0x4031b480c6aeb;0x7eebb2a94f71f;0xd90d5a9f06d8a;0x5f01cc4d90451]])]
 [[0xa6fbeaacea88;0x6533224873a7e;0x66e66a25e14f8;0xd79320a8ca693;0xa073194b272c;0x354f2e2e1db18;0xe3eca88e6d202;0x9a385864b0a0;0x22c8aba3d6621;0x384f8ce60d];[0xbc49b48c00c39;0x9fdd36c9ae0bc;0x3e2707903226d;0xb1ec406cf1539;0x209f376e6fb34;0xfcd26bbee66df;0x63a3a6df3bef5;0x1f2700c4715c2;0x2e9b009390873;0x3689b00f7be];[0x0;0xa04ce4d2dd270;0xe20a0901c088d;0x9abbe4017c2e3;0x7a98da8c29834;0x47652e5c9ed26;0x3a04156a51bcd;0x24abee9f75430;0xff2910a1a85f8;0xafc107da1f52f;0x31e8c11e17];[0x1;0x7ce9157ec4290;0xe0454f454d69b;0x6b15b5c19dafa;0x2179bf57b5c6a;0xc63c0ec382be8;0x2bfce135d6d39;0xcc6a574f77ecf;0xfbec176f05551;0xbc521b5053946;0x1437a7c4f2c7];[0x1;0x58182e9d2c440;0x938846ac95dac;0xa2fe8c6f8ea64;0x6cb8566010766;0xa56ab51c9dc1b;0xf7bdb612c3c1f;0xed57989626064;0x7c4e8c67476a3;0xd37cd28163e20;0x259402b192ff];[0x0;0xadd3a8ebeb6f8;0xb3b7b3bf44989;0x78453317316e2;0x8bed75df3cd72;0xb47d8befd93a0;0x39022565c566e;0x6e24b12bc7b15;0x2c98501a47c9c;0xcd793bbece7c9;0x5d8fb2d44c30]].
Definition wit_512B_64_4 : colwit ipt wit := mk_colwit (V [0x2b154dbb54b9a;0x4869e352a40fc;0x5aa69c40ed0c4;0xd4b01d23e6188;0x59a02c82b9886;0x91f10d3aa4a8;0x3c39acb7f71ff;0x24d48f9a3fd10;0x8351def28df37;0x29b19190c21] [0x9fd77956e003e;0x8ffca6805921a;0x3f2253fd24300;0x2aaa5b5a6e4cd;0x2a5ea06efd813;0xa8e1e7d35711f;0xcda8ecaa3e802;0xb185a1df32ac4;0x1e1b8b757bf5;0x2d4f58478a9])
 [[0xe89c73bd6f943;0x7d8857a9b0b86;0x78778525779b5;0x9e72c0d75de38;0x9bc8b700e98c;0x15f48ce5c332d;0x3757d90e8b539;0x6a6ceb4412deb;0xc2885e36685cf;0x138155373e9];[0x2ebafeddd418d;0x7bbeccb27cfc7;0x3c0d7844f8a41;0x340cc3de904ea;0xaae10dd44a4e;0xe97fe26870896;0xd3c3a3214fa1b;0x3693488865e87;0x9ffa06007411c;0x57ac7bfe6c0];[0x1;0x1caeb81485364;0x8562aae1dd8f3;0xe4c82fc488192;0x940bc0f62b60b;0xf7fc37553a5e0;0xc06d1df79040a;0x289bba382855a;0x2dbbbdbb144d;0x5d71103d55509;0x9247267427b];[0x1;0xb3aeb237970c0;0x8cf8a4f9b5131;0x9de1aea2127e6;0xac696ec38536e;0xccb38e90102a4;0x219322ad3bb5a;0xe7ed82a2063bd;0xf63efc26efb92;0x8b5338acb8292;0x1f39044db602];[0x1;0xb5e7d8227dc79;0xccf98456807f8;0x81abf480b926c;0x5d758d8678049;0x800bb268d26c8;0xfd33819a8d282;0xc74465e77b62c;0xe7fefed735ae7;0x5dceb226ccb40;0x144697825856];[0x0;0x828c62c4e6303;0x61b5ac9c0c375;0xdc4bc621542cb;0xe474b3edc70d8;0xc4f7773815352;0xac9484c3119e1;0x3ece4a0de551c;0xd69d0a8996059;0x5bfee9568dd2d;0x2610ba673934c]]
 [[[0x2a4ddd43aad70;0xa46f9122663e7;0xfcfd49d16e614;0x5a82f983be082;0xd01806c918f49;0x18cad96c6ab6a;0x792f6607c6585;0x8bb9c7ece4e40;0xd792ac921e610;0x72119a812c7];[0x1;0x6049387a43e90;0xafb8965b57073;0xd6758e82e2e37;0x63e78335927f0;0x54827d50e55f4;0x849f94b031a48;0xfd10b43074986;0xb74bfbfc5146f;0x7d71081a76970;0x1c28c89f8ddee;0x1];[0x1;0x94bacc9b10100;0xc94e69873a734;0xc483e2d84df24;0xe900e333ec1f6;0x11379642e5a19;0xf2517ae4aee4e;0x3a993454a7a81;0xfcbb48b36ac16;0xb827d5e2566b6;0xdf5309f7e24];[0x0;0xb9a9fe92cf650;0x4339fef906762;0x8f79662df61c5;0xe98875e9f6ab4;0xe483ef3f55f05;0x3e69012109e65;0x15f4b57815680;0x6bbf897f9d229;0xa389c373233f;0xe3c5ec454aa65]];
 [[0x55cdbaee6c66e;0x269a25d5adb23;0xc4d1642d40004;0x417dcdc0af7f5;0x67bae496e3ce9;0x592751c4bc558;0x6479b1d625f56;0xa7913604064f3;0xac78594bbb71b;0x2267a4cbe8f];[0x1;0x2118358552076;0xd57ee6a1f2a96;0x49ea6ce33150f;0x2af42185f3885;0x8be98ae2d593e;0x59e65b76efbc5;0x4cfef57220ecd;0xcc39b71314de0;0x9e9b335fa7c6b;0xbc4b2211f3077;0x1];[0x1;0x834d8d7364904;0xac3dd2674b311;0x56f7a0588f5fb;0x355381a8d318;0x347396e9e5a09;0xca25c37558903;0x56bd6ab53b611;0x299dcf25a15e1;0x6d8940da2ce9d;0x18b7745bf27c];[0x0;0xab9b5212eeaf4;0xf15b5470241e8;0xe687060b862c8;0x8a1a697a2ab8f;0x9246380c3b7c;0x506ddae8b421e;0x3fcdfb48910ac;0xa243c43792ee4;0x2bfbcdd324d09;0x44c2afc63cb77]];
 [[0x684471ba1ff93;0xf5f45ba5e1375;0xdfc40de65f74c;0x73c5205796ee9;0xc190d8ee4af81;0x3b9a5c1a07234;0xb1b617f8a72bb;0x8cb7c68eb2f68;0x9a90e0aad8b8;0x41b9299574c];[0x1;0xb4e1cf49537d8;0x35ec4467e5a00;0xf63a83548e4dc;0x964b18cd5afe7;0x6337bdff4e3ff;0x5a4ebcd1105c;0x54e16272bcb57;0x3d050800f2ed;0xe293d72b5b3b5;0x7dc3a61bff6c3;0x1];[0x1;0x4f2531ce68559;0xdebf661f89ac5;0xe5b51783cb0f5;0x1f03fa37418f;0x8a6c6130ee061;0xb03870d04e960;0xaf7059d4e9307;0xefb408a23308b;0x6dd251e6458d1;0x1cd526cae21a];[0x0;0xb0d357e9f83b1;0x7f67f3394737a;0x54673bfd21157;0xa0335bbee0bb7;0x566f0490792e5;0xca289c67e6ffe;0x353c34961ff20;0x14d999932e066;0xbdf191356b5f2;0x82ef9f6db4489]];
 [[0x654272b215fa7;0xa93f34569b130;0xfbfe196d2dd0e;0x929dcc45f531a;0xb7c50fa692b67;0x5682253ce2060;0xe23b36caab0d8;0x1bc5c49b76145;0x5ca80bd5eeec6;0x4cb80214a11];[0x1;0x6165c007f5212;0x18eb3d101bc11;0x930a0dd825491;0x1dad7bebf058a;0xc965bb3c9714b;0x196cc64b00b66;0x54934563547ae;0x540930fadd52d;0xfc81e1633470e;0x6702cd58d594a;0x1];[0x1;0xc8b9f7007961;0x87a4bc2334626;0x6eb1ec31f2815;0x9273e702d1bc4;0x5e5b74f03abc0;0xe2d0f7ec4178;0xf329455224165;0xa7ff596dd08cf;0x7ee04d62c1b24;0x11f785fbb462];[0x0;0xbba3509ada74b;0x2994b7cdb941e;0x4ca85661118ae;0x2d14f4f158594;0xa9e603c678e63;0xc8b0a51cebdc4;0x7a35c42fc1032;0xc2f30ce5d05a8;0xe6576f9b30ace;0x985b380506739]];
 [[0x9631a8dedc46a;0x137e5c913cd30;0xa4b49d1fbcc53;0xe3676b45dcaab;0x4a67de876317d;0x345400aad5804;0xaa0f33f1af2de;0x99d976dc7bfcd;0xa7d6eb08396b0;0x62d1dcf26d3];[0x1;0xd2d5e18354f94;0x2d401cf835603;0x2f8a16e49561;0x90e2518625514;0x107325034d2ea;0x86c5b00d2b50c;0x1612b8da8639c;0xf4c341db32378;0x3fd810bfcc6ae;0x3a6ff892cbc51;0x1];[0x1;0xe9d9d758f13a4;0xd46284fe91f7b;0xe51debf7f6ea3;0xd5e96572d04fb;0xcb127c34a61b3;0x414fe16632647;0x4a6ff26971892;0xb0ab5163ced3f;0xac81466867aa8;0x487a966e79d];[0x0;0xab131e7406848;0xe525e41608f8b;0x413b969fa5d3d;0x814d0ff393dc5;0x35fe6c879556f;0x94aac17a6b374;0xc0308a0154f7e;0x15477285fa251;0xf059bbd81a976;0xc4b512a6e0d1c]];
 [[0xe1edd8d79b412;0x89a940205cc80;0xe3e5e7e05c8f7;0x4c5008b81b9da;0xe2edead125c4b;0x97580d319eba3;0x4282a76622e42;0x15af21471f8b4;0x33f551a3b339e;0x3c75355ed5a];[0x1;0x226d7cc23008e;0x3f4d4569dfee3;0xe9988b454984;0xb8d5198819fc;0xf02973c795004;0x69fae04de4dd1;0xcff3fceb30f24;0x8b84ed6ce7f1e;0xf3a9e874d0f7;0x87a236720db90;0x1];[0x1;0x10a953ab4a304;0xde996b3db9a3f;0xc53989272d068;0x1790e40b4b80a;0x74168f0f8c01;0xe0560dadfb483;0x7597f0f416cd1;0xdd67d484a3269;0xb4fe46e952004;0x13a24f4d7d22];[0x0;0x42aec4f91e258;0xb3bc26d60ad61;0xbe67818a945dd;0x87acd6d056216;0xc34b33c6c2af8;0xda0930e7e06b5;0x95a53b4203477;0xc1205ab21918a;0x3dbec6964faf8;0x77ae29d5db520]];
 [[0x2709647b5be7b;0x63b26a740988f;0x63c98e50c4408;0xde98a3d33ee2b;0x11702ae0afc8;0xebc359988c6da;0xfe82bb05d2b97;0xdd5cb5d77b4d9;0xf759bb6036480;0x4624bef2d9d];[0x1;0xc0d9a4a8f52ec;0x1e1e9be931664;0x27224d059836a;0x6489f303ae8db;0xa300dc09738e;0x17cb6ae0bd7ad;0x85bf9228cce81;0xc6ab6e9ec9541;0x6efeb5820b25c;0x7430aab466e3a;0x1];[0x1;0x5f8b69a382309;0xb5808c795ad8e;0x1de0881f626a;0x7adad5c99644e;0xbacdf5b5d0c2f;0x3c93355d91c44;0xeb7dcfdff4e37;0x84ae755ea6625;0xedaaf93585882;0x13cae8092e2d];[0x0;0xac0159b4af2d1;0x60807c621b0f8;0xa12494547bc79;0x88449558e040f;0x3ff18cd6c9323;0x8525c7d4fdb34;0xc2ca205789161;0x98bba374c4a79;0x4f4f82aa7dad1;0x8b50e833d24fb]];
 [[0xe316d22096b44;0x1ebab8130341b;0xa93885fe8ea48;0x216c4c6df250f;0x57df1718a686;0x5bb859e67aeeb;0x1596d56674b7c;0x9fc44c4f8990e;0x6ad6205ab167;0x4832f042994];[0x1;0xcb342d401c208;0x1f90b18ed8980;0xb34faa71ed4ec;0x2fd6e63c95bd4;0xf5a935f995bd7;0x42d350a6bec50;0x842a86aca4857;0x4cf49dd650e15;0xc19633b1a7416;0x6feeb8c19daca;0x1];[0x1;0x9d6c49fa46110;0xff2bc263768bd;0xd14286132860e;0x8fc759c13c229;0xef8806d60b5d1;0x760001f6a7646;0x7b2a22a6a719f;0x96fa8f8947005;0xd88360665962a;0x5db683e3742];[0x0;0x9e8b0c4628750;0x552b7bd83f0f9;0xf0407b83d2eac;0x9f48481bd833a;0xeb5b99988edb4;0xae22c4e47d813;0xf1ef464ad1eb4;0x91fa9cfee8850;0x783103fda1e02;0x8fd3a40ce9ff0]];
 [[0x22d956ce3d982;0xb359f9f688a39;0x4c65072e4ee3f;0x16a853e7086ee;0xf7bd0db727ff0;0x57c597f729dd6;0x8c47f0813dc78;0x3766d3a58034d;0x2c082b4c46097;0x239a662bdec];[0x1;0xa59c0a79091e;0xff042fbb31f55;0x7bf357a9b6f11;0x814b1bf8603cb;0x20d374f05755d;0x7c18901652e35;0xb69bd1659aa58;0x2e39729d98af1;0xf6bb574893ca5;0xb9c81e741c10d;0x1];[0x1;0x88a869592cbc4;0xb8e7fadf4f920;0xa00faad79f3ee;0xae3ed3ede47e;0x58f76b217f03c;0xc43d8835987ef;0xa96a296c5caef;0x93248bdca9be8;0x79940b3ab2f9d;0x843e12a6004];[0x0;0x5b18b2c26abe4;0x7f5dfdac694a;0x3fc4338a7d71d;0x941463509a7f9;0x8d0e37744b03f;0x8cd3ae4bc8461;0xb403c7984214b;0x6ac7dd749ee48;0x66d81e18b27da;0x46b5bc154a823]];
 [[0xd8bfcc1e87085;0x39bf5c626a60a;0x34d0c82770dcb;0xe4ec87d3ebcad;0xcccda2fd5d73a;0x8174b31113054;0x584818d4cea5f;0xa3e7eef2449ef;0x995737c152f09;0x34140671721];[0x1;0x2bd0c0d5a9956;0x6275d8eaf1e4e;0x74e20d1202618;0xabce8ecea0b22;0x630b2ae0b5223;0x87f3a369a0005;0xc7a81d34717b2;0x95d8f21349615;0x567e92db9f89b;0x9888e94189683;0x1];[0x1;0x42d8b6ad79909;0x7685e4b8cdb04;0x8c0c22feb7144;0xb1033e3a6e719;0xce92f09c81baf;0x2a776c12ecc83;0x2ddd58cab635;0x9780dbd594ac4;0x51f3374f44095;0xa2aac2f8855];[0x0;0xe3de3ddeccae8;0x6ce01c18888df;0x8227f33ea322d;0x6dab2f5651c0a;0xce9f0a6091e67;0x79f18a0f7c887;0x8aab83df6f59;0x35aa1ba5d3af7;0x3783738a6c6a0;0x67d5d31db4582]];
 [[0x34ae20cea1631;0xc0c0269bfe649;0xdc96600eb4019;0x8a4cb8c0065a8;0xac4f50e4c0248;0x93d07320dbe6e;0xee8e811381e96;0x893c96125cedb;0x44cb4d305b959;0x66a8f154b76];[0x1;0x2d00a470e3767;0x56bd43079a79f;0x5bb070fedb14d;0xaafc6a484a2dc;0xfa4c1299efe75;0xe2f9052714ab2;0x70e0741513c2f;0x2079152489655;0x25107ff2a49f9;0x33803cd566e37;0x1];[0x1;0x3063f16abd0d1;0x5f29d2f333f26;0x113e795dc22c7;0x62b3fd66bbf93;0xcd83f997e105d;0xf68f7445fa898;0xa0a849b2fb378;0x92b1b0f832854;0xca90671da81ee;0xb4734ee80f2];[0x0;0xdbe88f41ae9fa;0x2368c428f2a8d;0xd6369d385dbe;0x3d93d58b09cf9;0xf93278ce8226d;0x48fc301463a5b;0xce29051254f81;0xabd8df579ee58;0x2da51ae56a388;0xccea7f337f6a2]];
 [[0xc1e1bf2b2ede6;0xcf5f6a296fb66;0x663e508f12569;0xb3a21001f1254;0x4064d44291008;0x62893d54cd492;0x59bd8db4d1351;0xcbf2726752423;0x7773a3c0337b3;0x6ff4425656d];[0x1;0x88535b60b5034;0x3409521ea3914;0x79c76a91f56aa;0xa74daa059a1e;0xecd588b2e9fe0;0x8196a30b24b44;0xfbbad8c0d5039;0xe198f765ee9f0;0xe73eca23e088f;0x207841522e06e;0x1];[0x1;0xd330d05af7664;0xb1416310c4e96;0x8252d6ddd3134;0x4de9bb0cead8e;0x142d246cd99e8;0x39126159d5361;0x596cea379a4d4;0x3b30eab528478;0xdc78c98776f63;0xb4105baa0ca];[0x0;0x5b0ecefe273e6;0x283e0c6f33a2f;0xd7d214dd7a7b7;0xe3d593e277179;0x3acc601c6201f;0xc4fb1ce9ecffc;0x5d815ab68ac2;0x92129d2fbe087;0x920c62db2b94f;0xdf30f66625320]];
 [[0xbcfcb60d5211e;0x97a5d4f62e5da;0xbc1b014f0785c;0x79a80d2d25d41;0x415a816f4230c;0x160e9aac1a995;0x2c4aef90f02cb;0x784400fa80090;0x30fd9055a4b86;0x4aff31a6f9];[0x1;0xe4e86d55fd7c4;0x2b501ebe478ba;0x4414edb40774b;0xbbfedc4b6752f;0xbcdf2b5e2b75f;0x3ae0d48e789a8;0x1e92b4bb13362;0xd04d0031fae19;0x6d87c05ed4c68;0xf75270a2bd4d4;0x1];[0x1;0xef0d484528d44;0x137ca48e4a66c;0x3947cc8bf546b;0x594ccbd7be3b9;0x1e66e57a60171;0x5378e6f7894db;0x2856bd25395cc;0x714e59c123f72;0x8dead84e98087;0xc8fd9e9e357];[0x0;0xdf47d88f90f2c;0x9e690e90e67a5;0x4657c6583638c;0x60d6771eb2f98;0x7805eba4dcacb;0xde027fd90b2e1;0xe7ec07ba49235;0xe7f2bb6dd3e90;0x985785351d430;0x7f382ae64b17]];
 [[0xcf4ed23465c07;0x1ca06a4b6ac5;0x8d8c48f101e2d;0x54e1acaa49e6b;0xe02e68dafda24;0x3ef747cd3944f;0xbb589854b5f4b;0x8a2e0bb38a4aa;0x5765914652fe6;0x5af2c198585];[0x1;0x77adf34389cb3;0xc7652a5841f8c;0x98ebeebc3ab4e;0xa2636721d86f6;0x27dd92384729d;0xc9cf5733b7fb;0x700d1e3f58161;0xfa9cf08e8c71c;0x732aba40ada52;0x4a3f456087d35;0x1];[0x1;0xe5784b3096ea1;0xedef389b6542d;0x22c7e5bee0177;0x3ba8df35ab2df;0xee4f88d63cd87;0xefc8998b370fa;0x4a6a1f9ae9da;0xb24cf800da568;0x2c222f43905fc;0x55eb0ace20e];[0x0;0xbd93d70a4296e;0x54d312eeb5cc5;0x36c1b921f5451;0x9653ae28560bd;0x257ed5078d682;0x199ec76e84b4e;0x83b5edf45622e;0x614ce79096929;0x160c2c0912244;0xb54ade3d80dae]];
 [[0x936bdf5b5e64b;0x6c26390311429;0xf4e17b8453ef6;0x13e8a469f41ce;0x7de51b11f3161;0x5d220cf237737;0xcfb39dbd9221d;0xbe3c71efc711d;0x5f5872b9a78e6;0x5b8ef94d277];[0x1;0x1c5afc1426f9c;0xb45ae71410695;0x9e23a78d59626;0x2bb8d594538dc;0x3bb322d2d3d3f;0xf095521e5c53c;0xfc1585629986b;0x1baf970f77d45;0x6cd3c81105940;0x4998f83022d1b;0x1];[0x1;0x3600c06e3cfe9;0x9b87be76b6c7b;0x44c186a9ec447;0x6f6a41d904523;0x9b36b7668a9cb;0x69077f2a44d4;0xfe7b65377d3b5;0x87f83b9159585;0xecbc77f5fdca6;0x103b5d1e7d53];[0x0;0xdbc49e3027f4c;0xa0d9d2a72c090;0xd0529cfec9bd7;0xb3048d5e9b486;0x86ba591d829a0;0x10b563c63adf5;0xa355429f5dd12;0xd291739d8652f;0xdfd2614ffe3d2;0xb6b8aa379d2e1]]]
 (V [0xf4f595a954715;0x5990ab781f0d8;0xc577edbaf5fa2;0xa8679f4213e2a;0x816c9d97f2789;0xa85c6d866b256;0xbc938d43ae9cb;0xb658f98f1c0f2;0x392368a23cb14;0x1088a1f4c6e] [0x6b58baaac6fe7;0x5a61ea014f8e3;0xb27965820b8ba;0xd9d4f73344ab0;0x506bc1f0e9c22;0x63f8f714d6dc0;0xc311922b50da2;0x6f8c5e8447fd9;0xdb46f8fefa1eb;0x221b21aa075]) [[0xd8daa37259a69;0x3586174794d6d;0xf1bac898c8e1b;0x63c4223d4782d;0xc4bb0bc73e4e0;0x293e3d0b2a958;0x29cc9875fcc11;0xdc9c234199614;0x31c5e869dc720;0x4cc06941b2];[0x1;0xe453844999;0xaafe25a813a48;0x4f3ba21d472f;0xe06b8a6c9f57c;0xb94241c7feaff;0x5dd5943ef767b;0x2d1f79cef2c23;0x1c4095752c5bc;0xee98a57fa9c0;0xf7cbbafde7984;0x1];[0x1;0x89d03dd23c781;0x5105261c1f57f;0x3ac2a430a296f;0xc01f7dfef2ee7;0x17da3d3db9dd6;0x9cab57789438c;0x94dcfad9f17db;0x1d5ebed1268b9;0x2c8c8326d1741;0x1790d35285a0];[0x0;0xaaefa520e6e;0x59c210e8d784;0xc7799164a597f;0x2cf467f7fdf80;0x30014d2c45574;0x6aa331e493784;0xc92995e05b656;0xdf262a65f2d3;0xecb2028ba33d6;0x9151de703463]]
 [((V [0x1650998feec1f;0xc366fdc375452;0x2444946d6343c;0xe4e888f684152;0x4927c0287c42f;0xdf11602257319;0xdaca49255721b;0x9798890b178ca;0x20fac2d793172;0x26b3a28b3cd] [0xc48acfd3498db;0x2fbb46f195d45;0xcb40f96054d41;0xd2fff20ee81ae;0x25f9e5eded90e;0xde623af803179;0xdd55b07ff0519;0x8574fec887676;0x2d9fd2399343e;0x5224731c0b6]),[[0x4e21566ee70f2;0xb57f764b9240b;0x44921c248c8f2;0x32c22d0dd808c;0x5837c11356672;0x72274ae386008;0x8bdfd28305603;0x297ada736bef0;0xb021666e719b8;0x50e33e9f71b];[0xde04072a1dc08;0x931989e62d458;0xe656f43b6bcd4;0x4268a1a48e406;0x77d09051b31f1;0x11bfd3bd6a41f;0x845e41e7c3923;0x457223f99b8f0;0xe9013f5681deb;0x7bac1036326];[0x1;0xa1c66564961a9;0x3c54a996fd4c9;0xdcf99bfb4eed9;0x36614cf178aff;0x16e7b3081f11f;0xf484b49dfc257;0x82794f33e12b0;0x221efd32ecd15;0x1ff979fe9789f;0xf53566163e1];[0x1;0x1f52d03d3efc;0xb0682b2c7940c;0x82813f2425de3;0x72d466dd60eb3;0x92b99caea22cd;0x6d9a0429733e;0xc0572d691a4c3;0x69543ac04fdbd;0x352fe2340a3a;0x2baed5d95fdb];[0x1;0xd9453810bfe84;0x66480cc0d5b42;0x994f28e568f5e;0x45da142c1fc04;0x9f2c4998adf00;0x2cd4e30419cd9;0xced6ef710ab49;0x6d4c8e023be33;0xe0580ffbf8f23;0x5c6c2b320ad];[0x0;0xce67673e2f26;0x29ee91173ab69;0x22313e814a407;0xd5d546915ed4a;0xce3f9d8e59ad6;0x256cb92d0658b;0x5600e74b7cf89;0x589ba1f70c1e6;0xde8f489296da2;0xa120df187d3c4]]);
 ((V [0xb95cdff01cc62;0x11fe1888a72cc;0x5801d6f1bb128;0x9f61e5115177d;0x32b409cc4dd71;0xb9bf72341d639;0x56e142874516d;0x522ebeb2faedb;0x143c0e6f4792;0x64950ef559a] [0x6a6466c9b1af2;0xc94247507bc47;0xb6db6b68c87f7;0xfe7d575597c6e;0x937992db4497e;0x2f2761cec7397;0xe4dd4e20a2c2e;0xf155486c6bae9;0xf81f078b02ac8;0x4a8df8d2d63]),[[0x57a85e0a235c9;0xa05a35461fb43;0xb5dea3fab1cb5;0x6351c43ff68cd;0x1d3bd8ca7ea82;0x3ba3e59b74020;0xdaed45f661b95;0xe5175af788e3;0x2e2a58a13be06;0x6b7b998b5ee];[0x2e6ed9d2c9c69;0x5e76d6da0022;0x28a743dfdfa83;0xeedbf4575ae16;0x3c395746cbc2c;0x33558f2b2bfe0;0x8ea0062551636;0x60d0088691ee0;0x6654e2a744a98;0x6050600a43c];[0x1;0x7411864fab131;0xc68129e7cc47d;0xf33b495819220;0x2da8dcc321f0c;0x10e92615d97ce;0x5ad0bbf078f81;0xf8d242b3b7b75;0x939f62b8d191;0x8ec60578d4c64;0xb4ed1b786f9];[0x1;0x707551487f086;0xb40c1a61a8432;0x9246c6012e9bb;0x6c30ef3dd384c;0x2bde5cba64edc;0x4564abfe0b308;0xa54bad0c3bc73;0x24bf73431d35e;0x57098ef75763b;0x1b7eeacab759];[0x1;0x21c4a5c8fb441;0x22a88167e9de1;0xa0c2559e06338;0xfe648a0be03f6;0xe118268ba92e0;0xa69c674905c59;0x84b9217213b74;0x8d56c264c1b97;0xaf199b8d6289f;0x109b78c08d3d];[0x0;0xb1682b134ca34;0x1126f9850111e;0xdff3faebad8ac;0x9d728c993d79e;0xe7b813ec52364;0x17f1aee7b26f;0x96a0a898c5f3a;0xe76c9b7db6ae1;0x5c338e43c6302;0xd5f553a6f1ab1]]);
 ((V [0x66005a6145705;0xe8dde5450183b;0xcc1461973e54a;0x5b74099f875f3;0x7c34932a1c509;0x95013fc867949;0x7ebd5a4ae3465;0x14acf397ddc1;0xdcee188db8;0x50b55cef15a] [0x6d4b3ffb19add;0xbc5cb55bed6a0;0x99931be15b31;0x922747871aef7;0x80e284d967993;0x29163c8a44e11;0x6732d280d7333;0x9c3e363f4fefc;0x51b5f29b71fb3;0x79c246803d4]),[[0xdfeb2b898e6f;0xee97bbd96b922;0x6b53c18984a95;0x9f2662bf47d54;0xa91e160312cf9;0x68bfacf67c047;0x977b121399e77;0x20459ec76708f;0x29bf8c88f5b26;0x2e380dc1887];[0x3e2ee0ee467e4;0xcefd3f787d819;0xc455f66420e88;0x4b880d53ba0f9;0x9e0d0dcc6ffa3;0x2a686a5698f6;0x1128ef1b0cddd;0xa5d7b523fe7ae;0xb6e7b8107a705;0x7fec3e8c03d];[0x1;0x9cd87b75c344;0xc3f8c1f878ea8;0x46fc15eef003b;0x4672457671fac;0x65605c03fb87c;0xa4a1528301d56;0x7e28cdc49de0d;0x538f56f4cf20f;0x892c5b3b3d5be;0xb0cee823d6b];[0x1;0xd02e484dec21c;0x6fa348af262e1;0x9b16995e55468;0xff088adad00f;0xa19cfb20ecd5f;0xff22d1e1ff436;0x1a465fe15f9fb;0xb3efec2042967;0xb174699e2f174;0x2c9b220308b0];[0x1;0x5b0b4ed70e391;0x9e33a1992ce95;0x3deadc273254;0x2590f6fb4814d;0x4d63b40563c4;0x5d9485b92d6e5;0x371dabcf8f57e;0xf88b6a5c39b38;0xc19f17956ddbc;0x2230e93446cd];[0x0;0x798a90fdabcc;0x9de88955ab31c;0x4b873dab1cffa;0x5c775b36c5d25;0x141c08cdb8442;0x77a23bf671284;0xef914a8f56d04;0xb281b1e5d9d1d;0xda2dc8dbe313c;0x5b1ce02a272e5]]);
 ((V [0x95853d495b2eb;0xf90ad43175708;0xeba3b9e76f6ad;0x84dddc3cbdd74;0xafc78a782f232;0xe90394df42938;0x7bd3c7524f15b;0x81fbe6ead1e5;0xfb633da32947f;0x4d9c8f5ab40] [0x7b590462169b6;0xc65ed8b9adfce;0xe11e356ca35ba;0xb7ae8de7e2766;0x749ec6dca9be5;0x70ad059e1357d;0x54b4db9e0684a;0x837040e8f1142;0xf5a63a1a731c2;0x545ce072121]),[[0xa2cb45fc0b395;0xf445d81c3159c;0xa3de57a105e9b;0x8bcc4e73b59bf;0xba2419d0f693a;0xf467ec55639c1;0x24e0a80569fd9;0xbd621c90190a8;0xca8732af2eac6;0xdd762a44c4];[0x652c0e9cb850b;0xd672f75d77622;0xf8a4e09d093b3;0x773a805b37494;0x61e67c07b2233;0xccdca6292ac38;0x295555003bc71;0x2a6452ddd753c;0xc7cfe9555dd8c;0xdde4d362e1];[0x0;0xcc5446a8b35f7;0x4f7c9ce7f3c8a;0x468425e47baa3;0x6e6ae79304a;0xb3a282611ce18;0x737fee1d86a0f;0xe119098ad91b2;0x8f170b15763e4;0x19d42362c6b15;0x17271ab7967];[0x1;0x6802fe82c4222;0x7dc17a91def3c;0x3cc709daf401e;0x7826102e203dd;0x3954e05aa1884;0xecf743a72e0e9;0x5eab4c0421669;0x8aa5ca07bf767;0x97eec4ff23a92;0x38e094a4227];[0x1;0x7722e5971ea9;0xd70686db3e3be;0xd054987a1f4ba;0xb06c34793d5cd;0x942b10d690eb2;0xd0c1696ce66db;0xa0d3a361f4d1f;0x53e2777ae146c;0xb2465114e894d;0x1dc8f67fab32];[0x0;0xb21a252a44b93;0x4aff33297e6cf;0x3528ff5590bff;0xd2c0bd0f2dc4a;0x689329430fcc2;0x930a5f8662754;0xb4a77b725dfd1;0x7fdd8f36f4726;0xec0e30946ca30;0x1a20b418459ef]]);
 ((V [0x6dc1f86f76936;0x9dbca34573846;0x300a655f946f6;0xffb894d70eeea;0x2cdcac93c9aea;0xb22f5bce70175;0xcd125da3bdd41;0x72a1461737c39;0xe9fcd5b461165;0x50bed004037] [0xff6a7863fcca6;0x249f40b993d1a;0xfe33196cf288b;0x2a7c09fbb1858;0x4fb2f478031a1;0x30cf6fa1b953d;0xfffabfd407cf1;0x79ab347ebc8bb;0x54ec7438b035e;0x4173f87679e]),[[0x6097c0d4c7efe;0x605562c6115c3;0xcd5a372f7e70f;0x78f3ac464a050;0x9458f2151e62a;0x2deaae245840e;0xb868e6f3f0c31;0x7c78903e10d09;0x86a334eb77df0;0xce6253a505];[0x55be68dd019a5;0x17af3cdf52965;0xe3cddf43f7448;0xfa8f97cb302fe;0x145af06b69889;0x940a51a2b8995;0x232c1af5d22c1;0xe988b0914d87b;0x6b66ae7cc3bb7;0x6ad73eab5cd];[0x1;0xfb1e859fe9da9;0xd8b0d70c1453f;0xc18cf389d2e3e;0xc4adb239d0e59;0x5015c25f23c21;0xe0574cbd5bf84;0x142afcb1663fc;0x9f89cad9abb2b;0x6b4ba002f7aa9;0xa69f615f8b6];[0x1;0x5de72d12ad6a8;0x4073a92efafd7;0xe9942b1a5fe87;0x38d765809061a;0xa6357df8376ea;0x177dbacdf9d68;0xae83322e692b9;0xa07f8237da091;0xb46c6b4bea23e;0x2700aaf159fd];[0x1;0x77ad4997f49c4;0x5618ff46c0f82;0x3895896f036c;0x464f41a7d2f04;0x474d7a350cc32;0x2b4fdbcce2ae;0x760c7b7a595f1;0x6a03c70607ad4;0x6f5beb83c7fe9;0x1d6a318aa13c];[0x0;0xc7c1b45689bc8;0x32b874d447c98;0x20b9f8aa3b544;0xa17fd01649418;0x431208c15e76b;0x9736eb0221dd6;0x144957c6a04d9;0x4db46d282b38e;0x88d0adc6db41c;0x18ad3e0f84854]]);
 ((V [0x20ca9c78514b7;0x16d68e18d67d;0x3e69183c8a3af;0x7d16308825928;0xbd0e8d4b4c641;0x27b737ffadd76;0x69275dd5079cf;0x2033e70371b0b;0xdd8703eed19fb;0x6aadd4fc5f9] [0xe78846bec09fb;0xb06d727342180;0xd7be42ba2e35;0x4f4a699180ed4;0x9d24ca48b6a5;0x9fc2837000f5c;0xb0ef51816424f;0x13f63833988d4;0x449d2b614756d;0x79654f127f6]),[[0xf1e5d8aa9cad;0x8f7a28059e1b;0x1992e3be0b3a;0xfd12c81e14969;0x5a07ef08a194f;0x3bfcd0adcb1ea;0xf574d050be2cf;0x5cd6b4fedf00c;0xf3ebdae527c7f;0x5510d1c4ee8];[0x5ded8d1224c2c;0x37b27f1f29b76;0xa3c117f31022a;0xa2e1d67253482;0x41b072505dbce;0xf51a6c0c5817f;0x71134be1cd663;0xa5e699a1508e0;0x70b42c06dff5;0x54e502a8670];[0x1;0x5e864b6d57724;0xc81a548927258;0x5190098f4acac;0x82303bdc8ffd7;0x2b5f90b06768e;0x92fc79318de3d;0x11600086e97ea;0x66580efe86c36;0xb2e417cf15fee;0x76da64d8eba];[0x1;0xc69af0d8c6c9c;0x142cc0a5bdf79;0xf010f9fabd69;0xb2b1c0128f52a;0x7aac715dc4105;0x186c235f3ffaf;0x9a3d65d268bfa;0x35e4ec48f70a7;0xa0a1c79a67d04;0x1a65ed66ed3f];[0x1;0x1c7c4f38d7bd9;0x2957d28068b84;0x263ce9b8ba9b1;0xd529d6815a578;0x689174412169d;0x3ceef24ba78c9;0xd8b8298e52581;0xd9c63ddd1a830;0xe02ea33d073c8;0x1dfce9139775];[0x0;0x3a5d0f742b98a;0xfedc0de2a87a4;0x7c6c513448b0a;0xa0679d6433c04;0x3a7f95a32132d;0x6fa46acd7a4f4;0xfe2466f085011;0xb15185af24d3c;0xeb3af88d23b48;0xa8efc5aae261c]]);
 ((V [0x6a2cc54d6f838;0xb335109ba2a59;0x2c3be1e55da0e;0x1b4cdb4819830;0x19b98466c5304;0xcd4b205cc823b;0x3f8688b459bb4;0xda5aa320443dc;0xdcbc4116016f2;0x418df065c7b] [0x53c35ee7aea9d;0x56497117fa7eb;0x1edf4b1869181;0x90d059ea8b436;0xdc0edd9d7bc0c;0x339f9efd2f597;0xb55865c79b072;0x7bfcabcb4c19c;0x46f587c763a58;0x6d92db623a3]),[[0xdfe6ab8e74fb2;0x22ae0d06757bf;0xa62198b78541e;0xc302dea3fbc8d;0xae4b2761b7af8;0xe97eced8c0fa2;0x8facf51a485b1;0x58177bd1c65db;0x4a1786f9d562c;0xa220353285];[0xbffe9dee06012;0x1d4ac2b94b562;0x36f2849fa35a7;0xb65235cccb45;0x1c594f1c6361;0xb167fd635b1ef;0xec27c8ca46da8;0x74ca298f15c95;0x32e013a71817d;0x2cc25ebb40b];[0x1;0xfc2295d24741;0x800e58fabd5cd;0xbd330d1365309;0x5b5960df99597;0x6a15e827a2f5e;0x8fa925c9efb58;0x8b034772b6ca;0x9707a1b652f94;0x8887db5b1cb2;0x9be8a1667];[0x1;0x44a67ec342c4c;0xb0d913b8c2dfe;0xb7071d4f05e2f;0xc45045ce4a058;0x736040e321ad8;0x19102e2e02be;0x1cb59593fbb2f;0x2e34bc0ca6667;0x7896ac44abe2;0xf955dfe822e];[0x1;0xd2ed9d4c0184;0x50d131bedca7;0x10b27f029c11a;0x3e76a24721107;0x5e09f93a626ef;0x2d6baf4262e76;0x25f2649f7fe7c;0x60965662222ce;0x2372e33008a79;0x22d05db2e4b6];[0x0;0x54ef7256c1244;0xbd694e3c8bce7;0xb82b343486b62;0x8069ecf706dbe;0x169c76d84a13e;0x69f93ae9c3e43;0xd781d933343f8;0xa8cd3dddc74dc;0x2e1f5b3a549f6;0x128379c020514]]);
 ((V [0x3adb49e2c6883;0x4efdb9e422ab3;0xec36afaf0d7ca;0x9537ab021ccfb;0xa1f45e8924162;0xe0749d2712dab;0x3d76f76fd2e1a;0x4a00c13d65dfa;0x243a6a4ade7f6;0x3d6a407745b] [0x772a27fbed7b5;0x4e1e5f849ffaf;0x5a36b26aa6af3;0xc4d6e9f40fc47;0x7b939436c7604;0x325d499fd3d8;0xb2059651b9c4;0x5e95fd105c92f;0x41bfa6cc73638;0x75489fc4cae]),[[0x934008570006b;0x6b70652a42cee;0xa4ed13f61603b;0x4f2ae74b6441e;0xfeebd469ea644;0xa0371215f33e9;0xceb66672220a5;0xf52164d8823ab;0xbfff19c48c592;0x2a8e49b2192];[0xb141f655eac78;0xee74424e675a4;0x505cde7b8001d;0xff8cd2bd9732;0x30e573dccdce1;0x7d17e71fe7838;0x42182991d4e08;0xff81c6816d831;0x97de6283f85b5;0x1bcedef6369];[0x1;0x88092157e2840;0x537dbad4c81f3;0x63f837c185600;0x4499a3bb5464e;0x48aa96126b70f;0x481569bc4155b;0xce2768546e5c6;0x5f185b0152539;0xc2cbe178d1ad4;0x160af85faa9];[0x1;0x23f6b7187c85e;0x4c6d9a61e5019;0x892fcd1abd181;0x70b69c01b6653;0xb28ddf1754595;0x647803621b0e7;0x7b7cd5f0c74f0;0x187168fb03aea;0xe7fd5933926d8;0x5dfd3dc9a1a];[0x1;0xdb3ce900a16a9;0x84eb21414c437;0x3f1c1fbedbb50;0xcef775b14085d;0x6c1e9902feb3f;0xf2d93abfc9cd7;0xbaf891137fb1c;0x2b95418ed06a9;0xe042e8f6fb41;0x172e643fd1c4];[0x0;0x71fad480c75b4;0x81c0c21265d95;0xe0785742f3a60;0xc5b6187385b4f;0xe1c0dae6c329b;0x2c7fc40723ead;0xb3dd78d23bb49;0xe6f55648b0e7a;0x5ec71079457d5;0x5382cb0749f30]]);
 ((V [0xd6aa4c7afe843;0xe541770bcb983;0x53445c0fb30fd;0xbc361cf712bdf;0x8ccb824ed4c93;0x2f09081515541;0x65135f1787065;0xb10b7b7f7ea65;0x7d618d6f81d32;0x6deb8336ca6] [0x11827a0558fe7;0x2544c1c4f9847;0xbd902921c655;0xeb4ba5e1018e0;0xcfc6a2be23cdf;0xf47c462ef284c;0xeea07ccff4e5b;0xbabb95ab051c5;0x2a9770289c1d6;0x50642de1a2f]),[[0xd5f274c2cded3;0x85a20725e5b85;0x3068e39489756;0x2efac036d2032;0x93cb899445ec9;0x184d076666935;0xbf3e33149e1ad;0x38fd46b4880df;0x390a297d6ba9f;0x6d45880beac];[0x8be1bde786942;0x91bac8950b42a;0xc886019258b5c;0x4a26c80a0cf2d;0xc45482af4c7b0;0x8e80e54a871ea;0x7fc88576019d5;0x6f6cbc4954518;0xe175b3d398e48;0x51658d44977];[0x1;0xb175c6a8faff9;0x3581014e42217;0xddf2c45b6f158;0x93ccf1a994a5c;0xb8d59d70b6229;0x973367d63475b;0xbf9255bef04d1;0xe04dc81508a7c;0xb2225986d03b5;0x85537ce49a8];[0x1;0x6a5da8304c77e;0x6163695042e61;0xc1d2e69f9fe06;0x311505f523995;0xdbe5a0bc55585;0x101d483b6f48d;0x458d33ffd463a;0x123aa6b3f966f;0x7bf1b7a738ea5;0x1202233e3f90];[0x1;0xe5e2d134b00d9;0xf4c3766f73614;0x64cb82b55044d;0xfd0528de57ac1;0x201c88dbe872e;0x7cdb875a75bdd;0x9a9af69f5a00d;0xf5e8613deb9c9;0x139a3cb37dead;0x1743776d1225];[0x0;0xb96f7a3217c13;0x1cde94259997b;0xf2332dc517c2e;0xc9189966e78b0;0xb5d6040e91cf7;0x8941586e48ca6;0x803e277a62192;0xe94a333333dc1;0x97f220c79e8c5;0xd943939881a8f]]);
 ((V [0x7e52cadb1c77d;0xf86521af09d40;0x2b13d2839e463;0x8f2311a44c87b;0x6d9d7f4126458;0x2114decbd3c24;0x76a5b0edd7032;0xd8f5eddbb6fb5;0x5f6a878f2c52a;0x651d784fb59] [0xc7151e2bac23b;0x3392c70fcd12f;0x947757c839c35;0xd987dafb4fd64;0x38b0b70f7a366;0x26dbcf22e485;0x9d11aea84224e;0xe24143eff85e9;0xa4f2dd2eee54d;0x476acbb4f1d]),[[0xbb452dd4d90fd;0x723cffb3a8f17;0x933180b02408f;0x739c638d8815;0xc83b8fb33602;0x7af21ff80f2fd;0xb31c038e92881;0x881407105c48e;0xdd426c5657d0a;0x315b7eba893];[0x5d64c2f48ac49;0xcb8ff7e6e2962;0x9006bfacaba36;0xdf07aa8315f31;0xb898e67216fd7;0xb8e929cfdf50a;0xc81602d11b6ed;0x68844eda9c31f;0xb4eef1d02f14;0x75d992f225d];[0x1;0x9b62556695679;0x72d0deffea7ba;0x3c0b253cc8459;0x15a1a44453b9d;0x545af257983a;0xdaa7f62f02712;0x6938bfecf8c28;0xabae6cf715fd5;0x71e34e064e86f;0x8d4e5916a73];[0x1;0x386d4acb0636;0x5a6ed0c80fdaa;0xc018a1bf77ee1;0xfc087fcaeca9;0xc235aa23ab523;0x270bb702df070;0xfd6a9a6514ef4;0x2ab07b0b2eb40;0x11613018ff327;0x28519d0eb5b7];[0x1;0xc17cd7718a6f9;0x6de640cc41774;0x6e445e459aff7;0x31ba9b55217a9;0xe8c5905c749b3;0x1781711e26a38;0x6882af3d5cf4b;0x8aaef74ba253d;0x47d53cf0041c8;0x26ee0af0d150];[0x0;0x42ccdf841bd2f;0x365da5f03d14b;0xe6c916bbd163f;0x63bf6f2b912db;0x2986848da55a5;0xe1c7a1b5219dc;0x17108c8505975;0xa7eb30361e13f;0x16de30f710f5d;0x61bc202bffb92]]);
 ((V [0x8b938db2df665;0x455904e8ed87;0x1a7c7f4115136;0x2e4baf825134f;0x6fe87c5f77017;0x4b53516c16791;0x2d826e6393847;0xef198ed6c5bd2;0xdbd3d49032aa9;0x40177be1ed6] [0x645481c0ccf8d;0xe8024dd7e063f;0xac7c3b887562e;0x1f41d4dace90c;0x4a9e467fef906;0x5750773e4d870;0xea6065edd67e5;0x78d45ff19b5f5;0x26a6b10fbcfbb;0x246619aaa5e]),[[0xa26aa0088f334;0xe9a750be8cda1;0xde648c4f3d1a6;0x13fdddb7c3fca;0x2c00c91c9e39b;0xf3b65a1d02be0;0x18f5d45e84361;0xa5c92d9f5266e;0xafafc4e6cfe26;0xc19318dd2e];[0x42a6957ab51a1;0xf9a2b1dff8e2b;0x8ce6aef6e5159;0x60949c6ad2a70;0xfcf36d2c14ff3;0x6eecdf0584201;0x4891ffb8cd38f;0x39b467d3edaeb;0x1557ad8a3b2a9;0x370cb620e67];[0x1;0x7e90231cc8ff9;0x7f2c967cec7c2;0xcf7fa7fc2466d;0x368b4225be58b;0x701424027a173;0x477e488fb89fd;0x520a489e0e68b;0x6ea613b51eb86;0xe13a3b8de5026;0x1e38e39b0d1];[0x1;0xcd47b6a063e78;0x88035ec4558cf;0x4c19270e6006e;0x4a29f6d0584d0;0xd6eb7755ad4c0;0x5b301e22821bb;0xb59e650e6995a;0x61fa09fb4be03;0x4a1fc55e42de7;0x13ccc218fe00];[0x1;0x8bb70422d7190;0x3a19136da8797;0x8438e91013d70;0x16468060fc2ff;0x460e20b2c8105;0xa36ac42b097f4;0x33042086fdca5;0x92ef1c6a44a8;0x1afa32b2780f1;0x213801ac2ab1];[0x0;0x78c3d1945d854;0x272c9624b3591;0xa2071c10a6a0d;0xb670a3bd7bb05;0xc92a45b6a8f6a;0xd5c38f56e9efa;0x873053c9be909;0xaf563cd75e2cb;0x83ee0c6de7444;0x176a5a5b9f61d]]);
 ((V [0xfcb72059f6552;0xa19495db8d440;0xfdde2236fac6a;0xbd90bf4a8c6a7;0x9f2f21e2e42f4;0xc86bf27632651;0x240c8e8c47bae;0x373b319286ca5;0x2fe48e1128026;0x53e30a6c71] [0x17b92c43956c6;0x9022cb76cdba3;0x6f12e09eec22a;0x5f0386c44f578;0x9ffd5f1e1aa7a;0x2571396096604;0xa1774458d0886;0x2126147eeebfd;0x73df0b4cc6dfe;0x1c5cd3d4679]),[[0x73e3fffb0df7b;0x89fd4daf4619;0xa6a0ae1249139;0x8115ef852a22a;0xb9c0488e123d8;0xdc2786b83243d;0x4e08d329245e5;0x4c924733c0116;0x434d27767bb23;0xee9b3e80ac];[0x29ae1cb3b1da4;0x1a07d4de9b8e5;0xfccfd71f4e850;0x67fbf66efc49f;0xd186227fea421;0x81e612906f40d;0x86b4dd3d2b880;0x83a08840f3051;0x422b238229c40;0x43d135e671f];[0x1;0x405e44fe76bc9;0x820a49ef7e115;0x60dcc75959903;0xf461ede5739e5;0xb2b1e665c037e;0x5299f89fc6ee1;0x5a7680d345e97;0xa76dd33309411;0x371a1cf53fe10;0x678aeb9bf96];[0x1;0xcb22c9ddb9c9e;0xfb539c937d481;0x249a9e0f6cf34;0x1fdf56e58c138;0x2a76ba107f31;0x799c03a88b7fb;0x5712100249687;0x99ae4eb3e478;0x57f4ff49a6c7c;0x18e6c03c25e2];[0x1;0x43d50d1ac7909;0xa7d08f3921d5a;0xc9125383e95c9;0x2f3af538f3531;0xaadaba9c9f198;0x83b0b534af127;0x8ac8b898a8ba;0x712a8243c4d80;0xe30e4c1f44e75;0x1091d86c88bd];[0x0;0xd2510b33854ea;0x9d06869ae0b9c;0xaa3edbc63c163;0x76e80dd4449a5;0x7ce97f221ff58;0xc599c503146af;0x64bfc8f7ccb9c;0x7a5111b9274d8;0x888d9569becb1;0x1d67a6df7b701]]);
 ((V [0x4b573425ab919;0xf3305c97dfb89;0x1d20ddfa42139;0xe757425bc2497;0xd8927fc7f9d59;0x72c0f5d080e01;0x8b906dede451d;0x2220c75139c8a;0x7524f9593f2bd;0x5061b7485a7] [0x62f3d3ec8b67c;0x9b15637cb64dd;0x21e969e4492d0;0xb319d83020c22;0x2b563d0afd5ce;0xea289380b30d;0xf5c629ff3acbd;0x72272817e5d8f;0xd28e7760c49d8;0x17d7c3ff9b3]),[[0x6c3ad323baf57;0x84d8a0231cf04;0x15a396efdfe51;0xc42cbc001766b;0x1850d18f1a688;0xcc7205bc9e79d;0xc7a9abe6c3abf;0xba131ab71bcf;0x80a616b442ca4;0x4bce016debd];[0x39f17bd66ab30;0xa3efa8e766e13;0x28c5f068ffdf7;0x68aa7cd5b9039;0x7c3d0a842cb03;0xd5c5c37b72687;0xc418791f4beb4;0x87ee5d999187;0x38328b23a5f1b;0x2526e5efd9d];[0x1;0x857df2b50d004;0x77a905f3d5400;0xcdd936b149e3c;0xa42c157fc7ed7;0x5841a8fc41a6f;0xe999c4dec6153;0x2c37558c0ae32;0x2e1063850759a;0xac1718eadfaf5;0x4a16d1db780];[0x1;0x8fcbd327f2354;0xb59f4458497ac;0x2c6adc31040b3;0xfb1cb75a62fd5;0xcf06ed75337a8;0xbca37d7c6ab3a;0xbaa2e109c6f82;0x193489561b5a;0x5b87b699ada65;0xbd514ff633f];[0x1;0x2a89cd8291001;0xca4aa58ac16a6;0x87185683df946;0x6f30b4064915f;0x5208f54526c72;0xb544ed7f4e2c0;0x8b675f4546cf9;0xb3398b64d9bf3;0x63c225d84d7fa;0x88d77bf2670];[0x0;0xf08f6189ad668;0xab13a18233b4;0x349b3d1cdced9;0xcef2aececde8c;0x63715cfca7bd3;0x3de580ed2d429;0x7ccf57f9ddebc;0xd8ca65284f878;0xe0cde5d9ac74f;0x9752e7eeb7701]]);
 ((V [0x792f30d0ffb52;0x234b66190b272;0xb0b8b334279c4;0xd31d0bc54f122;0x4d868f58e392b;0xc1e7bc8f94ba6;0x926b9eac75fd1;0x6c01784f2c3d8;0xf96aa6f5c0d34;0x728e9fdfe4d] [0xb4bd1d1ae66b;0xbd32f394130b7;0xbafa9b3d594a5;0x9429baa54322d;0xe4fbd547333ca;0xf33a220495c92;0x1c907bed916b0;0x2720923724d9c;0xf7170ae7cdc69;0x1afc98cc2a7]),[[0x374a3533379c6;0x7a6df6abbdc6a;0xc9f85d5ba05bf;0x88fcf05787bfa;0x3f5617b4b395b;0xd6d97132e7eca;0x12f243d73690d;0x68575f1c62884;0x6a267c2f5bb15;0x1c2e85e206e];[0x164b1d02638ac;0x2f5bb2ddd809b;0x2b1aef57593ac;0xc0134a3091800;0x16b85d1a27316;0x452b931b0c9a1;0xa79520f419853;0xeb87a6cf2c78b;0x3369b4d3163ce;0x33a2cf80763];[0x1;0xb4ad40eda26e1;0xe8101344852e4;0x59f82d2ae9f05;0x10a88ac670a58;0xb131dfa1e7e6b;0x79ff91050a4d3;0x2c24097f74460;0x9f862dc6ab7f;0x71de72942bfbf;0x34cb2f4dab3];[0x1;0x1611d4c2d3ad0;0x1546cae13b039;0xbcd933d802ff0;0xc18611170121c;0x3599de8976bc8;0x641f4d7610ab7;0xcfc1affab656;0x7a8d10680b00c;0x37e48b709054e;0x12b51224d79c];[0x1;0xc0bb2d87aa8e4;0x146023200475;0x9c7d36847419d;0x5be84085e92c;0x3910f6ea42dd0;0xda382c2a42a2c;0x56d4caf514b5e;0x41bd0ecf2d3b4;0x954496cdbe48c;0x2206fb1658a1];[0x0;0xa0568ce9cfe7c;0x957a073492df8;0x84ca81627e4e2;0xd60f9a7ff454b;0x134ed23f8a422;0x3a83845c011e3;0x492d87aabb965;0x39f4bfbcf53d8;0x5e07aa89640e2;0x380c0b5194892]]);
 ((V [0xb7f71ced4d463;0x33a205a226726;0x5bf92b45ba906;0x734cd899034e8;0x1456e7a2e0eca;0x1c9948fc32b6a;0x6f0fb6544a7e;0x615fa1fe5cdf4;0x20c1c693f41eb;0x8a6f84adc7] [0xe2c28f53a1279;0xc4239aba541cf;0x3f6f345ce616f;0x1ed7f8fea8c37;0xf9271db1fcb8a;0x8e4372d793b9;0xb02bc3cdc09ea;0x9151ca3ea633a;0x1a72b1204c36e;0x5c495594e55]),[[0x59203605251f6;0x53aeb8a6814bf;0x295ea60f06546;0x99b71424101d8;0x953fddf40c5a8;0x59b351ba1baa5;0xe06484e402a33;0x4973e01ea648b;0x69930eaa7dbdf;0x4119545c3d1];[0x510b81d3fd29b;0x75de7683ba130;0x961b2afb1cec0;0x1af85222989cb;0x15a34d1cd9952;0x40013bb28d933;0x61ca1797f5300;0x511c7abbba99c;0x39679ae59978b;0x48dfc5dafc6];[0x1;0x6da777ad36804;0x7ad28553f66fa;0x40ba911113952;0x2bd55a41fd198;0x9cfa02f2b1fbc;0x6a8ed9e6a0fe7;0x667735126959f;0x680e2932d2f27;0x55440ed91ad80;0x2b38e003a8a];[0x1;0x467186395c764;0x15765bd46fb62;0x6c3f6416a7a2d;0xb28e95f87c23b;0xfeb26aaf7c46c;0xaa335c9e23eaa;0x35bee5383dfd9;0xab2957384904e;0x197875c6a847d;0x199cb69b4720];[0x1;0xcef0797f72824;0x4cc90477bc242;0x7f2d6704e6b44;0x15697dc9f3bb1;0x8e476cb75af43;0x3cd1bfb452e43;0xd35f49fe12049;0x2741f805b4a66;0x64fd373cc9b7a;0x1ba6cb16472b];[0x0;0xfd39b0afc80ec;0xd5883bb35e568;0xfaff1addb43b6;0x66e007b791df4;0xd43384c691e1;0x68e30fa231369;0xf9ef458173aef;0x9d066037a7579;0xf68a30cd3f90a;0x81bb12c8390b0]]);
 ((V [0x73d3c49ac31e4;0xa25e4e9eacdf2;0xa2ca3dcad559d;0x727392151ca61;0x94fb7bb8ea462;0x13011a9fe837;0x22eff00040f03;0x7161f2fb99079;0x679f4ac1239bf;0x2eafa2bf76d] [0x2da2cec0951bb;0xeaf6fc93084a6;0x38acb85f4c9b2;0x67f53ba8c3379;0x6fac4a8059c09;0x8fc933e1abb99;0x76635e6525d7c;0x1df7df4144125;0xf7e0aafcedfd8;0x22daca4ca91]),[[0x740bf0634e4f9;0x65998efa2c84e;0x7919de2ab43de;0xaacf66f4e8030;0x57e8024489a16;0x5fad4cf3e9f09;0x63affe14b570b;0x1e45e02e69dcc;0x59d0ec1084bcd;0x5e463908c7d];[0xccbb372339ff0;0x115219ddb43a8;0x7b19a49a4278a;0x15a56e39c4081;0x767fef1e979a4;0x2c2d81c05f35d;0xf01e74c6a9a;0xe033be65e7b2e;0x15e806e486a3a;0x5ccf949f9b8];[0x1;0x84306941b4739;0x7f64518a92fb1;0x56b582ae4e56;0xfef4abb907e1c;0x1e0fe27304cbd;0xd1ba0ab77407e;0xf2be0034493cb;0x4b9861b3e52ae;0x671ab97436837;0xb9097067f7a];[0x1;0xf2446586c5442;0xd92ca8b078731;0x4706a7f6eacbc;0x962f9c85d0b92;0x4fed74fad0134;0x8c272b96d5759;0xfb142a28986e4;0x6fe0d50eb0d52;0x21cae201e587c;0x1a4ec83975fd];[0x1;0xdb49a05c8c0a1;0xa9f6c8510e3ee;0xaf12cfa1a054;0xdb182509214de;0xadd0c4c485483;0xfc4310861e52a;0xf843da967004d;0x60e0191b7b3de;0xf017516e9cc29;0x3a8bdc5efee];[0x0;0x42b4ff9a99b62;0xebffb34c50748;0x4229fbe48b082;0x30c122c918efb;0x398ae77ec522f;0x97becf84b270e;0x823dc532db18a;0x55dce28e9dc5b;0x3ba6c19fdbabd;0xbbd06ccff8053]]);
 ((V [0xd3ac004584fe0;0x9c4d67ffdf3cd;0x74f69a56d3418;0x379c95753a79f;0xc00c68a793c5b;0xf80e04ac3b627;0x9fe748c65f4;0xd82b4b0700cbb;0x41c42ce2f4af9;0x386d7d6211e] [0x717db9b5e7fbc;0x1c98db7342a7f;0xf9c8b6b483624;0x86ff5ac998c65;0x180b2b4829a63;0xffc60c881df1e;0x59d2e20a68ddf;0xfffef6c72c354;0xb1a85e8b870fa;0x1c701c7a64]),[[0xaa32414af665d;0xe4a141360a588;0x116b1131eb9e8;0xbed3e8024e027;0x32fa5f7cdc6ae;0x67ab21fe26f1d;0xc784c91d9cc0b;0xb3649cac75245;0x7c19cdc5460bf;0x4f94db9c372];[0x43be7c8da5bef;0x726d8d8b7be7;0x24c23c165c0fd;0xf6db145913d1d;0xdf10b763bbb6a;0xf7bf8d62e8c8a;0x390a0d8152266;0xc9bb28154f4e8;0xc05ad28198c94;0x7a22893e4a4];[0x1;0x213248c6e7a10;0x8d301d5850911;0xc73bb2d38c5da;0x6c75f8982c3f8;0xc11fff6a1bab3;0xad99f60a8d135;0x1973c6b365428;0xe5992ed9e205;0x72e0900635bd7;0xe33de48324b];[0x1;0x53f331e4194fe;0x5e2bbf165adf9;0x46a2f60eccb74;0x44ab58ea11c79;0x5cfec0533e239;0xab0f50133cc4a;0xb2a5f8b5d81fe;0x10de79ab68e62;0x90f73e7672181;0x2b17814318c2];[0x1;0x9858bee60aeb9;0x3ff789eb0b23c;0x3a0e579391274;0x3e32dc51a9dfa;0x74d7faa18a674;0xec8b824a310c7;0x4f91648719c10;0x6298fb92f945e;0x436085ec0eb5f;0xfa1f198fd90];[0x0;0xd448a2cf6f629;0xe7a9582522d61;0x2d65d911a519f;0x71962c17aa693;0xdb57fbb57f7a4;0x3d68edc588240;0xcd738735ba4bd;0x7ce135966857b;0x8d2477456e512;0x9f29f9fab6087]]);
 ((V [0x6f28fbcf9d052;0x91a311ca01f6a;0xcd060420cfc9f;0xa91d76b7743b8;0x33495ab83080f;0x5ea763c1a6d8c;0x90160381219e0;0xcf6ad8df3afbe;0xfb529c0d64394;0x6e7bab40698] [0x61854e0074f5e;0x8722b4a88f8c4;0x485b2026bf16;0xfe7af955ac4bd;0x2c42c50dde0b3;0x79008dc0a5d27;0x49eda3fa9376d;0xf13ee4f1b48bf;0x4d32cc5a62432;0x4fb7e596f15]),[[0x781968f8ffdea;0xb31e021a73b3d;0x9b1f51efa5df6;0x6ad001e032408;0x3505a86a809be;0xd29995ae38532;0x105d51f77ccf0;0x53061c927cb82;0xf4f63e22cfb6;0x76373345eee];[0xc6bc686399a1c;0xea692029cb2cf;0x60d8417b04be6;0xcfe461b26f0d1;0x1c21223b9df36;0x4dd2e008d9f48;0x5afddf2a307e3;0xe85bb5863b7d6;0xab0c4f9af2596;0x67b0b1ef383];[0x1;0x8650950b1c400;0xa1656bbfb5d32;0xb5eab09c4d054;0x1b9ace3440d1c;0x66b6b641814ea;0xb58613982b638;0xf7b2ae958e4b;0xf832216ae8562;0x57a3a6e2fd200;0xb68138809af];[0x1;0x5837c2f28e8b0;0xac3b3cc2dbac7;0x378a08493940;0xa01f978153684;0xa2e1c44a7173f;0xa833b5f3d2514;0x166d28d7b0d5;0x48834bd28a022;0x77176cd3870cc;0x26adbb7e1289];[0x1;0xc86c4508c11a4;0x7a15e00af821a;0x52b463b043827;0x3755c0c709448;0x82be796cc2884;0x3014201c8d3a7;0xa0ef0309cc81a;0xb0fb7050c533c;0xdedd5a8b1b0e0;0x1517f6db2059];[0x0;0xb6d4ffc1c8ede;0x24f826ded8d17;0x6272913a07b21;0xc79bdbd300665;0x4ad232d37b650;0x7664bdb7a749e;0xad43e6940046e;0x11a8c71584218;0x27b0635a06329;0xec0fb38e5ea46]]);
 ((V [0xb3fc6d778d736;0x2a7d3078bb5c2;0xc22b1ef8f76a8;0x104603617e32d;0x5f5dbcb2cb47d;0x48650814ab0d0;0xf609740e2e849;0x7ad481101fe3;0x1137fe27bbe2d;0x35c9b5ef6dd] [0x6d4763c2b1e49;0x636b0c5c7318d;0x4f3f72cc0eb7d;0x59397799ec16d;0x53a16efcc44c5;0x42b6a35101700;0x8814a6a85f109;0x9f5e14b32d87e;0xf00cd2b20f0f1;0x5f8f0822f14]),[[0xde5cb5b6328b4;0x88d10f99867d1;0x7c0b556222e85;0x42933a70c3ac7;0x1cc157e2e8a13;0x7885338f6bd5c;0x56bad1dbf526c;0x11fa99bb4f6e1;0x60e34c27c4189;0x28f5f6b3a33];[0xadae18d003b6c;0x7523d936d15e9;0xe36fcf2c38a6;0xd4ecb69137b8f;0xb8b690c9adbd5;0x44f44c5e00f85;0xda56c830a1378;0xd43fc9cc02a18;0x9958955d3cbda;0x1e1565b7a1];[0x0;0x44456280263fc;0x11de9a94476e1;0xb4a3c568c2fb4;0x42dbb37436af2;0x91c6cee33eeb1;0x27784ecf29ebd;0x9ca53ca2b22;0x9ae66a1d2323a;0x4eef322d667c9;0x5b9a591bc62];[0x0;0x4685d748e7ed0;0x18983b50b8f0f;0x495a7246d930d;0x808baf180edde;0xa617fa118cf7d;0xf97918f83b86;0x6dd204e09443b;0x919ae6569f541;0xd5edd7ccbd727;0x27bd489efc2];[0x1;0x81b25543cad90;0x3438e3fe414b0;0xa169cc3465676;0x5d456567624cf;0xc765283a10ca3;0x74be7f2fd333f;0xd394d8d709c0d;0xd43627b1152f8;0x6f0645ae413ec;0x21866860bf8b];[0x0;0x1788ac503fc04;0xae978cf1644bf;0xd247981fce837;0x83daa52bc5afa;0x4acc707c54729;0x36cba9994a257;0x8d176987b266b;0xb4f2240638924;0x780023d5dd32f;0x50c87a1114ba5]]);
 ((V [0x3e27ae0390c2f;0x16f23facb9b47;0x47178cb7f12f9;0x383da9100857a;0xe1947f91b5605;0x2d60101554f5e;0xc47c54eb2fb1a;0x1c1d9894ccff2;0xa5118da7f0682;0x7100d120a11] [0x8aacd47f3da19;0xb2c15133ebd78;0x42dfd911d2e79;0x9083459581dfe;0x3ca45ba8e3c5a;0xd7f4048ea3107;0x1d5954b10599f;0xe804a90952513;0x8be5e93ddb1e4;0x71268421dc5]),[[0xb84319db403c4;0x44b9cccc6311d;0x90237d7923b09;0xec2b15cac7ce;0xc7fda9197e5e4;0xf0ccc4d80ed69;0x19e0902773853;0x70205dbd8ff8b;0xf9a9105a05e6f;0xeab4d28c8d];[0xda6a9d9c2ee19;0x430d3544e3f53;0x9481458207100;0x7031d425adab1;0x4f80148dd71b0;0xf4d9881f094a1;0x1b8fdda28a44b;0x4ceb5d75f5fcb;0x477b71b54f91d;0x1950b1f1495];[0x1;0x417cd1fe55f24;0xeb98653a3f0a2;0x835b8685fcf77;0x6ca32cac26556;0xec9e22fd94fc3;0x53bda3ea928eb;0xbe1de01ba6bf5;0xcfcac2294f1ef;0xa04374f56434c;0x1c071b59e52];[0x1;0x268fd44906548;0xc998f2289a4eb;0xba469476d153f;0xbdf0f010024a0;0x8d704a965ca69;0x119d393922fd3;0xd708b722e224e;0x4a5e477431c1e;0x8d04780273908;0x81fd1c815ab];[0x1;0xa00527d3a6510;0x4790de168e37a;0xf33acd998ad11;0x6312dd840d10b;0xd050dc6850d42;0xce46ec20d985e;0xabf93f0f3dcfc;0xb1463226c1785;0xc3244bd438988;0x1b77a1bddb60];[0x0;0x21e39be746128;0xf82d3f5303b6b;0x25d342d0f7a21;0x195d5f39457df;0xb7b67e97f0388;0xaf59ac3f6be72;0x2f5af42ca0603;0xbd6c1605e8674;0xd1376095ae16c;0x1bbd113fe732e]]);
 ((V [0xfb23628215c74;0x8c952af224224;0x381ad4e2c81d3;0x958e3955827e5;0x3c1fb47b43232;0x81d0fa8893e06;0x19e09a0c110a;0xa1c5ecf886ed3;0x48df05b44dae;0x32c4c1d75d0] [0xd914ad9fe52ff;0x81e7997672177;0xf0236fe58f708;0xf0142b3207b3;0x65298e863b048;0x4937986544647;0x76c8418b7ac0d;0x6d89c6bac6081;0x1638d6e48c38a;0x57c3aa28c64]),[[0x924cc83d10d84;0x2739990ec9e6e;0x744022d9a9e99;0xbbc3197b01091;0xff984a5b67530;0xd4eca075fa8ea;0x47b3276886664;0x14b56cfe0759e;0xffbb268d328af;0x749811c3afd];[0xb117833c06981;0xe85cb7cdd5a24;0x2dd7aa139a286;0x1b2c01d3da25f;0x69ccf562f99af;0x1fb5646cadc90;0xc2b2c08390d42;0x41d65410d82b2;0xa0b1998bc42f5;0x31a9e0ab810];[0x0;0x4ae88bf107ef;0xdd7967da3a17a;0x8ff6686a0ae35;0x8f12593b1a3f1;0x57de5536b61ae;0x3098f8688f923;0x226972315c865;0xf1dd8779db1c9;0xaf767f911b0f2;0x6fafe7f00];[0x1;0x10eabb94e348;0x31fdc8461836a;0xb21e45d649eb6;0x6f26255d58198;0x13c1afa6f7036;0x27290281f6aff;0xee31adfa9ed65;0xaa9beede651a2;0xb30979facc79d;0x5bd899a5a30];[0x1;0xdac50e6400310;0x3954aabe7b3c1;0x25589ccea0d01;0x247661fe15b0a;0xf99ee643e516f;0xd9044948aea5;0x4f66eb70d8d94;0x7d4472192c1a9;0xb041600b6c28b;0x1bf5873545c6];[0x0;0xe2a8390ab0ed8;0x6d03144141b3f;0x7a2ba92f9bdbd;0xee1145bb4fa35;0x3b3faf5082692;0x4e437502f1b1a;0x586dc978b2179;0xd4e8747d96310;0x59b9cbe52dbcd;0xe84b979a5dd66]]);
 ((V [0xc80071154625;0xec330ebeb7d82;0xe30fa817360a5;0x5bcb0058c0f80;0xef469a2ee1a75;0x8016a92e6b7c3;0x28e693aec8a3b;0xfee6658d0b436;0xe78a1ad19f718;0x649d030349d] [0xc6ad41c614636;0x6aa926b17ce1e;0x721ae03d450e1;0xad18fc414d767;0xac60be796c1f5;0xc569f73097d0b;0x9b5bcf6fd444c;0x1232964ceef00;0x3ba37d2f113ab;0xdd2f4bce1f]),[[0xedc0d32ee5abc;0x703ef44bed874;0x20e17ac2f4a78;0x31a26a9d32be8;0x65a62d7c131ac;0x7a275082ad0f;0x5b3b404268527;0x112fa89865619;0xa2bc89f97b07f;0x37bbd1f55e1];[0x333efd9e160b2;0x65fb6e1cd588e;0x3b8f22ac806b2;0x47e2d729bc9e0;0x6b220d8b78c34;0xfa38c85505928;0x8f27b392a230f;0x2ab2b0c0d43ee;0xfcd46573104fe;0x217ec952981];[0x1;0x2ad87aa2b2390;0xc0213d627a26b;0x6fcec30537e52;0x56e6b74e49968;0xa5e67c1713f40;0x87f861a7fdfa8;0x1451aa1131d91;0xde754fd6f779f;0xdb1efbaa3f0ce;0x2edaacc2267];[0x1;0xdc0c56106d608;0xa2c4339e0650c;0x402115bad711c;0x1582d91833e58;0x7ca5a525f821f;0x64e4edba47f12;0x2ad26e4eca2ee;0x2549f2e865121;0xb86118b548bec;0x7c8b0213e57];[0x1;0xb952f5dee3110;0x36437abeccabe;0x5236f43c0d2c7;0x61d6c5557270a;0x55a4fe442ff90;0xdec375feb56a8;0x7689bc5ebc045;0xcee911c3705ae;0xb84ff21533f30;0x17c08915c598];[0x0;0x798e99e45a4f8;0xbc6856044e35f;0x349c7c99c5f42;0x81df01d024923;0x6160b8111f029;0x40c78cb0e6b5c;0x3ff837d3142e0;0x27cfba8ea8e2e;0x884b17223f1c7;0x6ece7e6f33851]]);
 ((V [0x349fa8d477a5e;0x350c3bb26b68a;0x3b20fd86f0f74;0x55060c61cf2ec;0x6c87ec8115d77;0x4ec24a83de7a0;0xf7c45ec0ceda8;0x24ed609abd09c;0x895ac86f55b2;0x591a7996b73] [0xb814d7030d0d4;0x4529f5b299fc4;0x24045f0783e17;0x129feed921f79;0x921c0fc8a0e32;0x3ed9f62422aa9;0x64091688eb81e;0x1d703d107c259;0x98195b633662b;0x6457c60fde4]),[[0x2097134b168b0;0x3302eebe80996;0xd43a031145a15;0xdf78e34c9b960;0x895ea280bb4a9;0x4160fb267b70d;0xb92d88296b152;0x1b6e79aa4263f;0x1118c0364a5cd;0x6247feab60];[0x1c1c1aae7a21;0xb0ce32e19ea0b;0xb8b6f00f579bf;0x5c1675657279a;0xc5bf888c46f11;0x4914fa2c823ab;0xc4f9a4e10c33b;0x5ce3421c8dfe9;0x14213bed6eb40;0x640378de7d0];[0x1;0xbb281dcd5d149;0x5aacebc3e15fe;0x537cc8826c4b4;0x347da9771edef;0x7740286b35d76;0xda5679796edba;0x524eb29ec8bd8;0xe16e768c2ca94;0x38a5ee3e220c2;0x78f0dc6e727];[0x1;0x919e5aa792640;0x8c17a2feb5a1d;0x4a435ee2ea3df;0x48a963ddfe9ae;0xc2a74de888185;0x2399c073bb187;0x391d537d37895;0x553ded7ac0d12;0x3d3df787ed3e5;0x256c12bfa3e5];[0x1;0x931f0340d6900;0x8f42eb1a88b29;0xc98a43076124;0x9b9f308f320f4;0x51e4504dc6e23;0x94814679f2de3;0x488d31db52200;0x34434661b644f;0xf0b70b0ae270f;0x2445d88d420e];[0x0;0xf7247411aace0;0x416bef1d92d00;0xc93ce71b86ba4;0x3741ff82a2ce7;0x5d182773aa0fd;0xca8f9e9f4a80b;0x211979cc1f6eb;0xf6f9f55236317;0xdc21e732eac4d;0xb6b5c4665946]]);
 ((V [0x28df4be9d5d56;0xecc3a463d7b9a;0x2d770a5699400;0x33ff8688e928f;0x8fd1862c33eb8;0x56d0e8403da1b;0x8da4e41242b90;0x4316889086397;0x34e45069768f2;0x50223e4a256] [0x98227a121e49b;0xff0273ead979c;0x19ae0d15ab708;0xc49d69e8b8c85;0xffc13f5fde146;0x8deb917d478c7;0x61f162cf027aa;0xea404ead35011;0x77d9f0bfa30fa;0x57100c608c7]),[[0x5fcdb19b9fb4c;0xd83b6b5481c16;0x3aadea2c88852;0x1c122b22b7ca2;0x5e9b51af6575;0xd7e97148098ef;0x490d833400ec2;0xfbdc162434155;0xb783966d39e61;0x284297a6126];[0xa995117f1610a;0x1d81fe5829c85;0x1e97f8e9d2adc;0x58b20a12782bd;0x2ad7a884b2ad2;0xe6e25983432f9;0x9251007329167;0xed2d5f1484d68;0xff382b0e481a3;0x5422c819c66];[0x1;0xd8bb566485844;0x2aa268fe0bf3f;0x5277cf09bd598;0x3e5d0f2e1b067;0xa9842b9fccbea;0x27177628ad620;0x13ce2222655fe;0xdf12ba1033df1;0x6587d328e5801;0x6a3eb9a41d6];[0x1;0xf1281112527e0;0xb2ac05f4f23fb;0xe1cfc621b240a;0xf41570bdbc48f;0x3d7f2be291bb3;0xa821b798d361c;0xa91514135fb17;0x406322c0e0cf2;0xc2fb4c8e38b2a;0x1b9b16c89037];[0x1;0xc1cfd2bcc0d90;0x2932e39f41e8c;0xc7193c162fa6b;0x2af445b23d1e5;0x12c610d0619cb;0x25c488fa558a0;0x80947ba6e5c96;0xf30c257af8ede;0x7ed0ffa6803ea;0x1f804a182451];[0x0;0x787a8fe7af2ec;0x50677ed77beb9;0xaf3518d994ec2;0x91cad43427b17;0xe0a14301dd0c6;0x23f4ea7126754;0xb5d15ef3d73f0;0x9f14e7b5608d7;0xe87913367e77;0x4f39747c110e1]]);
 ((V [0x4526a3fbe3034;0x7673b4f2d4ecd;0xd388cb9b690f;0xfd7fb183cb5e3;0x690e0367b16fb;0xa704472b6f326;0xef1577dc14565;0x40b88b3c9c945;0xd0667f8b04431;0x6100ac3d2fb] [0x931c35e76d3d5;0xaa863136afab6;0x56b2c7c019e9a;0xf9e2aa7152e75;0x440b24978dbfd;0xba96dafc73a33;0xa17b47d7f5e8a;0x391e9616cf4f8;0xfa3d7babf12c8;0x25ed4c5f555]),[[0xd46418097771a;0x4fcac6d5e5c67;0x3d40abdc78d64;0x2dfee38f6d4ba;0xe92cdfc636413;0x996554d7c57ac;0xf4731026973d5;0xd8131cb39b90b;0x145074d3f603a;0x672d5d7c656];[0xc0e44fcf60372;0xfb35ed9baae8;0x54d3a664dfa76;0xcd57d9c901fb;0x6292c59cf4ffe;0xc60d3c24fe669;0x661db07499e8;0xfdaf7288d1ca6;0x532d10801216a;0x104ae6c95a8];[0x0;0xaf5e720ea1f5c;0xb48f6df0feca3;0x7279c6fe842dd;0x3ba9b9ed8dc37;0x79a1551a8dda8;0x6b19da3d9afad;0x7a2f9c1668588;0x105ef2db00586;0x5982146779546;0x119509732f6];[0x0;0x70291a5e05444;0x3b55ae1f3899a;0x92cef19282923;0x6fa2913ee6a58;0xf2da659c8924c;0x4adaa4c35f2ab;0xcbe945b16d079;0x1ec7768425c41;0x1ce3a41533abd;0x2a9a21a881d];[0x1;0xf7da88b06ba64;0x6da77b42a204c;0x3e9a74afc727b;0xdbcc1480fdc29;0x3a0e9be039247;0x289f4771effe0;0x4d41baea18c71;0x23d99d7dff31b;0x3631ad39b77d;0x1af5f3f1ac22];[0x0;0xaa5e1592d0e6;0x5c381ccf5e1eb;0xefb57b4c2d7dd;0x4a22581823adf;0x61ea24c497165;0xe395711df1916;0x5d1a4c7e42d29;0x6ab00290f8e56;0xdcd9c36ca9905;0xcdba54adc929b]]);
 ((V [0x76995386844c1;0x35ae5e15e858a;0xed60a258e78dc;0x6718c229af27f;0xdbf45bff3b4;0x5bbfc98e4f178;0xe04bd75f49af7;0xf22438e363642;0x9ac1964402959;0x1a8e1c68c63] [0x9ac4dc5456d91;0x4e7aed38917ec;0x315a0d7171b9e;0xbd9bef7e0e1c4;0xe481d1ecd1886;0xd5fe90e8db96a;0x2522e2fa413bf;0x567ed1fd6d6db;0xa26ea20ab5ba3;0x1877fe409bb]),[[0xe071c7eb50832;0xc60d780334870;0xfb8a1d049fdb4;0x7254ade031c36;0x38f398a8e7e60;0xfe4d37796c1ed;0x2930b5937b8ce;0x603469c2d6e24;0xad1283e6c4987;0x719e93ba756];[0xdb8b8df7fcd3a;0xfc0741ec3f372;0x21abc008ab6a9;0x15d6ab9140d7a;0xe873fd18e17f4;0x3009d443ca639;0x8f5c3766c9f96;0xb660087cdfb6d;0xaaae4065200ac;0x626c8ccdd8b];[0x1;0x2289ca354b990;0xf63b9c2814ea5;0xf7ce727c9f01e;0xca1dc4c70b3e0;0x1da769e95aee;0xfff5ed477b31f;0x7e61324884b96;0xc16512ae09cc3;0x64a86e4896ab2;0x7b56148e0d5];[0x1;0xac5ea668869f4;0x8550fefc6a470;0x4f7523f015a06;0xaeeb420802a7d;0xbffe427e32113;0x915eda256365c;0x46a80c6f12969;0x3adfa537de77f;0x256336ca898f7;0x20b36589aaba];[0x1;0x1a0e8e275b384;0xe062745357f7f;0x1ce141c165086;0xbb367c1a0627d;0x8f9644f72846b;0xc396e84803e0d;0x218a1cc2a7944;0xe4f51dea1b1c8;0x5a3843f222a78;0x15444287bb54];[0x0;0x51a0e7ccfae1c;0xa691597b72db9;0x42c3205075d8d;0xc799fbe6bc09;0xee18d31bcd98a;0x78248ba4e492f;0x39df6c18ebfd8;0x760f81def1301;0x83348de2474f4;0xe37083dd16a87]]);
 ((V [0x85fcf4705af57;0x5a793a37b1ee3;0x6ac0add9b2cb4;0x1ff5d26766a2d;0x1636f874cfe67;0x31aea8cbac775;0x6368c2636e2fe;0xacd7a4a40550e;0xf2e28145b66e5;0x65874f9396c] [0xd1be6225ecaa2;0xc53236f2bd1ec;0x2c7f304ca078;0xe3ee73292196c;0x7b6704e591119;0xb03128c768e04;0xed31bc81a4634;0xb0fb766a1f8af;0x203980e20f26a;0x4330d002375]),[[0xf04306c2bbc68;0xa6043e45c4909;0xa00eba29efda3;0xdb25de4abd1a2;0xdbd3060d31eb6;0x942568c0bded8;0xbe2c5b7654194;0xf8a0e8abcc907;0x4b9ffe85070c8;0x6365eb71f62];[0xe7c91b2e5547d;0x99a2b5a9c476a;0x4795586aa7711;0xe49d07a9d7be8;0x57036b68b1da5;0x9e4be90c0118f;0xcb612b7f46a51;0xa17c003688bc4;0x59d2c8c15a6ae;0x10ee293ad1b];[0x1;0xc8572d35262f1;0x53a554db5587;0x5a74b5d888efc;0x463d807e66a5c;0x736d7991ab026;0x7b202490ae415;0x88ac054622fdf;0x4285715024e17;0xdcffc631d82ab;0x1c59f924041];[0x1;0xe1577c0cad8d0;0x403f580358f43;0xc7c760f37f041;0x2e1e003ea9b44;0x4e01803a6720a;0xe342f392ec1a;0x671199c75d8f5;0x62995c101de17;0xa8f4d2c243df0;0x3f9462b38fd];[0x1;0x2511aa951a640;0xd90a9af0980b3;0x85a6cbee72174;0x86b967a789a21;0xe11b76ee2e479;0x525b976d2bb67;0xab52bf0074202;0x652639491d521;0x6f1c3095b1f73;0xe817176ebcd];[0x0;0xdefbd003e1a58;0xb0314f60b6347;0xea29c412ea93a;0xbbb3339d78a6e;0xa30cdab4bb99e;0x2f3cebb6fa066;0xc94f0f86a7b3c;0x46caaf2fabe3a;0x7f41ed1a4fbea;0xc63db2c2bad84]]);
 ((V [0xa400d244b68da;0x33c8a102927e8;0x600cce69ca33d;0x29f3cdbb0fc6;0x8fc5417a80f83;0x2896364b08d9;0xd86e6c4a453a9;0x2f6345f1f17d5;0xe84c582a53d3;0x51fd401396a] [0xf2557b6406db5;0x3ed9ce1a82bb7;0x1a9cb68ab5174;0x681be5a0a83ef;0xb7827b69fe6b3;0xd1071437718a9;0x886dc9dcb2264;0xb0114744b00c5;0x1c937857edb6a;0x22b5678eea8]),[[0xfb57b219e541e;0x6a91c882d4fac;0xc6729e431344;0x505460d26eae5;0x561fb070fedd5;0x5739959a535d3;0xb4f045c5af771;0x3cabadec9de71;0x3fdf394bad14d;0x71326a3a81];[0x3ea8ccb392c5a;0x4a7944df3cb50;0xd97817d98b3bd;0x43246fae77ab7;0x9f00ffa30b2bc;0xfcab1fc9bfbc7;0x7359bba72f1e2;0xcd6e5c78468d8;0xfc9ff5c3b4bda;0x31ebdb15e2f];[0x1;0x7ff59c2b51001;0xcf19cf0de1339;0xa32c8fd1d0625;0xbbe132549e2ec;0x3b0775e198f51;0x4a3781f03dced;0x49f19dc772c63;0x3aaf0d61b1ece;0x5a9cd494507d1;0x134f9d8ccf3];[0x1;0x528280cce278;0x4555d806eb2a1;0x881026141ffe9;0xba11f7e42d838;0x6e782eacc64e6;0x3f22c8a5641f3;0x622d39770ae3c;0x5ce05143f22f;0x121a09e0d47ad;0x12419b0b4870];[0x1;0x3fca50c484144;0xe0ac171c47fbc;0x89aef26318f76;0x515a42d978028;0xc4e66499ca81a;0x4517cda1ab5cd;0x2a1da3d42363b;0x1f0235f387cf;0xc76782ac5c676;0x239b3a35e1dd];[0x0;0x621a0faa9fad8;0x3e47d9798702b;0xaaa5a3d08374d;0x54f3ea2f78447;0x244225e4b723;0xbf0aedc920fb5;0x4c77e59b4be8c;0x33111c0af0824;0xcd8d69c5df688;0xd62a8780ed17]]);
 ((V [0x91a135ad3e8c8;0xcab62b60268a4;0xa280a1dc26ade;0xc502148511658;0xdb82c78d4d2b3;0xad50772275939;0xf773062a5492a;0xe18ff8204213d;0x6db6265a0508b;0x2d09da71ad6] [0x967aae00e1a15;0xe780e7083e335;0xce6b0de4861d5;0xc400d99493a81;0x8e6f1ebe9ff77;0x231256278d5b;0xbfa4de422379c;0x517b654e3a055;0x22ca5fec61e40;0x62dc898f11a]),[[0x6bc61584b07e7;0x82d711461464f;0x1c1bced762384;0xad58ea882530d;0x8de8c2ae0e1ac;0xcc299ccb3874c;0xe5e621728998c;0x1e62fa7363aed;0x24d2993af12a1;0x4e28f4b19ae];[0x35d0eb590f007;0x68bd2b42597e3;0xbf1bb611aebd0;0xb12a2ac793329;0x8ccebdaf75b3;0xe4df8c2ad608a;0x672f3938a8be9;0x522c8ee86cc0a;0xb7d5859c1cfe4;0x29170196256];[0x1;0x62bf285f53564;0x2bf19e22987f;0xd3b848180200c;0xc667e69bd95de;0x369758c8b3c9;0x11a9cb5274264;0xdb0ba20ca6a5c;0x2a0f8759e622c;0x46f974ce4cd0;0x1da9890412b];[0x1;0x22451a5b57146;0x3fc5eadd21d9f;0xe9cb420def6fc;0x7f7314d756886;0xbaf897676081e;0xc50ac0e020e1d;0x14f77ba762804;0x928790aee309b;0x1b0caed365df9;0xcc26bd3a0ce];[0x1;0x9f49bb9c994e1;0x8505b78f043c3;0x262bd3f847c36;0x249210c78ba9b;0xe080fd546d274;0xfcbb9b26bc5fb;0x761f8c6e93e1e;0xe308c54058e4e;0x6a78d6a7a4077;0x1724ebdde7dc];[0x0;0x704b51e408e89;0x8e88c0185fb1d;0xb88d11889f2eb;0x462f1a09404e4;0xfa325a82a4f29;0xefb7f231560f0;0x18fd57567d7ed;0x5bb2fa1207bfe;0x24f60574bbf90;0x9bab7e9a4d12f]]);
 ((V [0xe3db49ecf5d13;0x73ae832f85443;0xef4888860ae84;0x40cfbcd8d825a;0x25b8c6467464;0xa9b18f5dc12e8;0x4a1e67d1d921a;0xcd7e1700bff4c;0xba361820e3799;0x64db2031bb6] [0x78ac5d6fd8f24;0x712c07ad82d7a;0x6ab01d94fb4b4;0xb827f989bcdde;0x7fbfb9de87899;0x51d39cb624644;0x4e7b3e0e08b5d;0xeaeb96d3f72e7;0xc0e2de43a9ff0;0x671cde32a41]),[[0xfcfed3563ebb8;0x8a3ab249e740;0xcc7afe0f37dbf;0xd17487ef5dba6;0xee06bfa50e7b4;0x6f3d0c52c5293;0xa0e6449726557;0x927a53a75111c;0x5db4e93f7f9a0;0x339742338fc];[0x3a88fbc4bc2a9;0x648ab4fcf7867;0x2b85d28fdd5d9;0x9b89ac82d353d;0x9e1f577206d5;0x1b8d7a8159e23;0x696dd95e8fab8;0xc35225cbed13f;0xcbf8da540836a;0x64d61555e58];[0x1;0x929d4b37bb840;0xb94de83d8ebd0;0x1b94a4344b0b5;0x68742d8ab3a57;0x5f8e46077cb29;0xa3d62092d2e78;0x11f243b331129;0x3f6a58f6a1564;0x52ec7d16b2415;0xb9d33c51b06];[0x1;0xd550c83d59130;0x76ceb4a5969b5;0x9fc5babe08ed;0x9cfa4d0ac1918;0xc86872c6405f3;0xfa94e9c4c4cb4;0xfbc898df5fe6d;0x4a1169f30ed74;0x219f3d5b9e398;0x20d531bcdbe0];[0x1;0x7fea92cc7040;0xe11d790dd9bb2;0x187aaaed4dab4;0x2c6426fbb8126;0xa454ff0f75bd4;0x70625ecb6731a;0x910d7a03dd2d6;0x7a63dc9840190;0xc91af51fde656;0x169126eaac1f];[0x0;0x979378bc93820;0x1ecdae98315c8;0x6dcb6767af0c3;0x887a7134ba5b5;0x3acfd08eaf9d2;0xc3ba2e2b96fa7;0x8fa759d0c39b9;0x1fa0f47bf48a7;0xeac16e1f8b3c5;0x65b7a982467dc]]);
 ((V [0xa09a827ec1cd1;0x59124ac71a671;0x50fa9301a50a4;0xefafe21da2054;0xab7d3c674fb22;0x4237ea2c5baba;0x7ebd5a0a99817;0x1c72b623e9f8;0x107b642096c6e;0xfb13a28d87] [0x4321572bc4360;0x1be78a96e740f;0xb45110ac4ba71;0x587becf314c9d;0xbbc24cbebba22;0x1e324596458e1;0xad34747003a6b;0x490ccb0d45337;0xc6a1f391b5a41;0x5f588737c3c]),[[0x888190501f977;0xa19a83ea77f50;0x8c0ea43b8beae;0xa2e9dbce519f;0x5140a08ac29b4;0x3f947ed839a5d;0xa23f6d8a9fbdc;0x9d3fbfebcbb8c;0xd50000a93028d;0x6fcfcd88c45];[0xc258db6f87175;0x4517ed534e11f;0xf163e6c61dbc3;0x256b35db48d8e;0x70ff8300664a7;0x72ee17790bde5;0xa9d480ec51c6d;0xf1a97723d77f8;0xe46f7b6fab922;0x3f5e4cabc4d];[0x1;0x88478e8b29659;0xdbbf19cc76336;0x6d07a985a6001;0xa37debf8ccbff;0x57a19a957df26;0x9f534cf102253;0x2dd7d3cff32c5;0xc1b1aaa13b98f;0xe194b9e8f7f2b;0x2f44bfe9a29];[0x1;0x1f78af0a997f8;0xbe67b0a3ac646;0xae21c58f9dfc7;0x39845b92e5f2b;0x152d6b76209df;0x8df54d6b0c5f9;0x323d4b3cfad65;0x31364c7b14690;0x915e01d9e4cc6;0xc810ee234b5];[0x1;0xa0e451c3f9c1;0xcf7b8e933e3d4;0x995f1d02bb38f;0xd83cc8f407301;0xdde44cdae10c3;0xb7edc9b07cbf5;0xa4b9845fe8bb9;0x6bbedc7243733;0xb0146620a605d;0x151233b43599];[0x0;0x2583f1871ca9;0xf3210a7c2e522;0xf46ad1f1e01ab;0xa24c59cfa9d9b;0x2bc4568a78824;0x117641b0a460c;0x7856c83c27c08;0xa8d5630ff8241;0x5a6a0b2cacfe9;0xdecce4ac3a7ff]]);
 ((V [0xa17e9e08c1cf9;0xcb2c987e61f77;0x5a9a6fc32b567;0xabb2529584d92;0xd6134bd8ad6d;0xd3d968d99fe48;0x66203d3b68238;0x263b0acc283ed;0x9582486ba392f;0x188ff8416a7] [0x4c94e6553c718;0xa5d6f0da8c119;0x971b7f91b11a4;0x2464448fc4ba6;0xec0c29766e430;0xb7001ae36d22a;0xe4687ce2b3833;0x841276ebd67c1;0x9afd77f47612f;0x68b26bc747a]),[[0x660e4703c8ff8;0xbda27583862de;0x1925c8ac48dc4;0xaf4798aa4bcdb;0x40f9668fab624;0x776c0169af09d;0x7bf048e1af8bf;0x36547e87bfe30;0x3f4a0784feebb;0x477814a5268];[0x65f1101237d69;0x4cc9287fa12e5;0x48e3cd4f432f;0x6540d542c3322;0x1b0790dcf8fe7;0x14d7f953520e2;0x88741ac779055;0x34da8873cc756;0xe98144b3f8ca3;0x2b2f661bd79];[0x1;0x4a9f4c90eca11;0x6fd0aebcc8f6a;0xd4d8a063cfcd5;0x895acc4e2663;0xadcad611e0aa5;0x1a45c71be47c4;0x6398d0f091ed6;0x33c2a8374dc6a;0xf089167566634;0x54724d33291];[0x1;0x58dc8ca7a2a00;0xddf4fa21f2ff5;0xacbdaa997050;0xdd521801a9215;0xba8736dc57c5c;0xe8d7b3974cc30;0xd79b30dddd1f7;0xa31977d19c6f6;0x27c9502f2a849;0x98a349e5f41];[0x1;0xe902965ef5c40;0xba74733a87e10;0x5e8f28e7bbe4a;0x309a57a6f3eaa;0x2c52d92bd557;0x73ec498c945c3;0xf744794077dd2;0x82edf7933a97;0xfc336cf042cc8;0x47fd319846f];[0x0;0x998a007e132b8;0xc21a1dbfaa25f;0x949e8875628d2;0x21d9461da7ec5;0x3d9fd6285c27;0xfa1d8d946105e;0x3af91d94b5bef;0x1237cb40a062c;0x75563f901d05e;0x8da2979941fff]]);
 ((V [0x7d7dc16132212;0x9c84de3567e4a;0xa01d120a62eb9;0x76355a540de9c;0xeb0f34450a146;0xcca20fd0e4293;0x7eeb6fa675f36;0x3868b89552b41;0x70535da9ec5d9;0x5534cf40739] [0xa6f71ebf7b3f9;0xfcc8a69f6722a;0x225cc78a4d9c4;0x294308c9753f6;0x75abfaa49eb93;0xd6d5592e1dd82;0xc260fc1cbd6e6;0xdde7b79bb5989;0x38f0e64e07bbd;0x8811c2e6c8]),[[0xefa019cc71aa4;0xff4121d28be36;0x50431fc3bd5db;0x6f29f2df01796;0xbc27acd2da8e;0x98fe12ffeb64d;0xfc9d59439289d;0x8ad8479c6621e;0xde0df09793f50;0x6a1d9a42957];[0x1144fd94b986b;0xb1bdfc9970004;0x2fdf2db9ed7ce;0x1fe0d3b5b7fc6;0x7f12209be120b;0xc8e12d624e195;0x25b6f636df8c7;0xd2d5e54a8d085;0xdc0a6d5431ca4;0x6245d6a2619];[0x1;0xe06f7972cb0a1;0x7f18e94dac98a;0x56035924637b5;0xf7ffde55a62e4;0x406f6760a9401;0x4aad2a15c8240;0xd5c7c77a26a6d;0x5e5e081e335b0;0x67b1a5506df90;0xbfd50e3da7a];[0x1;0x4af79fc42aac0;0x8325ea59d3601;0xb8d233e6c0fe8;0xb1fe434c72499;0x3fa7940657f73;0x46c5b25b1006a;0x7499922e5f6f3;0x4243e8b1d2952;0x10692668b6c03;0x1a00b181924d];[0x1;0x71e7b2681c010;0xd66f5a75b00fa;0x645a047579621;0xa13752cfd2239;0xbdaf100f33ea6;0xa1e762b9afd53;0x655a97aa397ec;0x6d2a7495a1ae2;0x6d728c5e53481;0xb4b0712fa96];[0x0;0x9731dbbd1d668;0xd868a85139f92;0x4d4ad7f3345f0;0xa2da56f49e223;0x369b2a775d31d;0xf77c2da78dd3b;0x5e5c149453ad4;0x114771976421b;0x344d943266ec1;0xd390a48708611]]);
 ((V [0xa91161f827667;0x9b9d7285383c3;0x9d3d6da8356ce;0x1aa5ea6256275;0xd56b6b91a8529;0x1a29b83f71dc0;0xa8209459c4123;0xada0fbd68fcbf;0xa7d3be15929c3;0x46efb31ddbb] [0x776065cdd0836;0x7083b704904f3;0xbfe2c9ab4b6cd;0xdc59c86d5b0a9;0xe8812fc627eb5;0xe4daf1633e3a0;0xa9585c098286a;0xc1c8d5acbc3d1;0x8bc7e0767e089;0x679fcfa5215]),[[0x43695adb50dff;0x1a420b12cce72;0xb1bf94a291d72;0x62ae3c97d33a2;0x25e7f858ab2ae;0x27de889437120;0x7a51ace2b33e5;0x5d95980db68a7;0x7b628543af75e;0x2a8e8ae2c2d];[0xf588aabe29092;0x6fef6262765e3;0xc8b23c20f9438;0x1e84e8b8a3063;0xdd6f37a605431;0x2119e35133b63;0x5e6e0430847f8;0x8334b04f51d2f;0xe7d3af61a1fb7;0x251de8b5f44];[0x1;0xdb162a7f89b04;0x1b944708d7d07;0x1711ebc8d3005;0x507ee9b6643e2;0xe91fb78d7e04;0xe75f1c9aacdb4;0x2f7d1c581b89f;0x9034a4dd348c5;0x7e685b5d64b2a;0x118398609b2];[0x1;0x65f7e3217682e;0xfafa6f998344f;0x6cd0e2701eb23;0xd7c0ff0092557;0x60575462efe99;0x500ab180903d4;0x429effd69e800;0x3650998147806;0xc30542487269e;0xd90bc8da350];[0x1;0x5c3db8df84571;0x9c68e7698044c;0xd2d3e8ad53abb;0x98a390903554c;0x1e1879f80420e;0x505e7751b37e;0x493c7e4f5fce5;0xae759b216ba5a;0xab4e39525607;0x1d48c795bf82];[0x0;0x58ce919d9a37a;0x577e563d8619e;0x237bf86968592;0x137b6c511364c;0xf3f4a7ddf3f19;0xe9853768777e7;0x1e3646ca50efa;0x4cc2df942e546;0x408d327f12cb1;0x546c210a23b0d]])]
 [[0x9039d30603ee0;0x33cea42a0bf74;0x9f4794d8682c0;0xb2fcf2769a8e4;0xd37ad4fbc0180;0xad3ba05ebb91;0x64ee54562edbf;0x6d7170e39c1f0;0x49a6951f6b1a4;0x4903d77b81];[0x135ab96c6a9a;0x7cb0cf0741190;0xbeba42043fc26;0x2ce923ba9327;0xea4dc60102934;0x7a086344e337e;0x5cea7f12f62c6;0xd108ac5af004d;0xfa6d1ba27bf2b;0x6786ab72411];[0x1;0x96ca8ac060fe1;0x40a2715495403;0x2f2bb45a2236e;0x1289f0aa3c281;0x8397320b67286;0x858558c903fea;0xe6b470356c854;0xd08b939d68df7;0x53eb9aa43020c;0xa7bd6a1bfbc];[0x1;0xab50d5e99de80;0x3c483e7132119;0xe25ab3f75ea9d;0xe3b6f69a4ef2f;0xbc74ce595d05c;0xdd29d53783e83;0x75374b5d0b692;0x7f4017db0de32;0x109b9163b7c5f;0x265c47c99d80];[0x1;0xab71cccc30400;0x9172e4705e481;0x3772064232c6a;0x6e7fd0410b78a;0xec4934373b8ca;0xa1132e6b29b5e;0xdccafb299613b;0xaef1624f3267e;0xf73245fb08e7d;0x1e821e9604a9];[0x0;0xb361c26f8cf80;0xa1e4912100d05;0x89fe138f9f2a2;0x35eaeb7b9b7bf;0x115807b805d22;0x836f507e9baf1;0x931a3e1d19a71;0xc31a2777ab877;0x6be49f904e8f5;0x7c3d45b7f53b]].
Definition wit_512B_64_5 : colwit ipt wit := mk_colwit (V [0x24f6700514ebc;0x58bc8f8ee3bea;0xda6b4b168f299;0x896d2d9a6a2a7;0xf84367b3ce342;0x130a57e73a8d4;0xb5180c29235ff;0x1325b2ac3bd82;0x6f1195978b43a;0x6e2808d7456] [0x38a24b6ab2e48;0x4b876584205d7;0xe1d9ce0185314;0x80423fea5682d;0x4f28052249c6b;0xbd7e27d35d428;0xf212126be1d62;0xcb33f6207e6e5;0x56f2c57f8275f;0x7cc2db51587])
 [[0x22012dfd8854b;0xb96000f61cd04;0xb9cfc144a460e;0x643141e938841;0x67a75a276bb72;0xd534faf5b5469;0x942429616b333;0xb98db61044079;0x3db7ab5c8099e;0x5011773a637];[0xe1d32b3a41f20;0x665557bbc4506;0xf3eaf1c2d5ac7;0x7f2afc6a5cf21;0x81203213e40df;0x2eff58fc87575;0xf4da2648682a6;0x7307c6b46ee76;0xa871cbeef42d3;0x12872b89a9b];[0x0;0xd9c62dd15861c;0x1f4c855e13bc1;0xa2e2d9f117a3c;0xaeaa496790810;0x603047523bacb;0xde93721743f98;0x8ed809eaa57ef;0xd546bea0d9692;0x6e7cbc30e25eb;0x2ca9fb3f569];[0x1;0xf9a3f67826fbc;0x7f8c9822ecfda;0xad7744e58379f;0xf413576e60cb6;0xb3aa0a14588af;0x2b9a908a20b8d;0xf735a2db45111;0x8dda08d3b184c;0x411b95d4c0050;0x148f85e6767];[0x1;0xbda1be93e59e9;0xdda270ece2025;0x7f3d7b071308e;0x6e4b523fe77d3;0xef92cc042c8c7;0x584eab529189c;0x8f8f5a3446057;0x57238f43eb65a;0xefcccc5f7574f;0x24353c0d8f81];[0x0;0x65498f244b141;0xc1973be26f17c;0xec42d34b28325;0xef16a278e8cbe;0xe3c0264bd95bc;0x279ea17205077;0xf5e237983ad6d;0xac6e427d19e89;0xb489393a932b4;0x9ee3b2ed76bda]]
 [[[0x9a0f472e2b7ee;0xc6073e6f09d45;0xba1902eaac6d;0x1a1706fb86d89;0xf54de6bf8d2eb;0xc174d65e39fea;0xc8d42dc234b5f;0xc908d2bd18380;0x21a359f065312;0x2711322d6c2];[0x1;0x326c3523aadae;0xbfa3ee1cd9bc2;0x7dcd16a8d81b3;0x9a12d5ba8f8fb;0x2ab4192fb5903;0x1328cf4386f94;0x9edab8168d38e;0xd495f4a979126;0x79d7c7e6ba274;0xb31ccf2d838fa;0x1];[0x1;0xf8aca4b907304;0x27a61fe63745e;0x62961b7c26a6c;0x7ee22d680a244;0x1791e4576a971;0x3af5860409577;0x8a48dcf169359;0xee620707fe4ea;0x73e060d938e8e;0x211cb61bdc91];[0x0;0xe32a8921d119c;0x41e21f7492806;0x2458844072b6a;0x705817d4fa526;0x2976d18399f45;0xad368b00962fb;0xc8e583d05cd7e;0x6d3998788cc48;0x28f8677a205e8;0x4d36a2ce99798]];
 [[0x4af8f5cd147d2;0x4c22b8a6c60d6;0x364a99e06960b;0x87629205c5a52;0x238548e28a18d;0x4a6b9d3a56740;0xcc3854f18cacc;0xb941d786227d3;0x3ed8b139e7e04;0x6909bead1c5];[0x1;0xf56f042e5d000;0x608cad37c5215;0x5eef1acd60d23;0x660f32ae5c1c4;0x2ec3c46c42426;0x2ebdd20f40d81;0x10935ad39657a;0x4f5bc73cdf19f;0xbcae43091cfcc;0x2ec33023ad61b;0x1];[0x1;0xeeeda5de68a04;0x7c2471fec90f3;0x3c0eeb1d4872a;0x731fdd1ad0a1e;0xb4d6f676feb2;0x6da0266258663;0x55b3d9acbbd1b;0xf20a2f066cf85;0x6cec399fa861a;0x1e56b35c5dab];[0x0;0x7015b39c0e286;0xfccaa1e8ac0c6;0x1e7eb5053b68b;0x4c5beb7daa6a7;0x783720fdfba82;0x3790d8282bccb;0x8e09ec7279863;0x3995d4dc5e0c5;0x475f0d95cc303;0xd12674ff1760a]];
 [[0x1d68845383b87;0x93dfee637c6e4;0xb12559ac4c55d;0xd3b6564d2e3a7;0x2a3402cdafe4d;0x178bc8c2d4af4;0x6f2f1ce861b6d;0x909ecfcd3ec0c;0x34e6231a2046c;0x7481d4edeec];[0x1;0x2881aca9b9cfa;0xcfe0038e683f8;0x767678bea975;0xffd0e26582189;0xa79e318c48e77;0x75289d45dd4cb;0xa91a10fbe2fed;0x3ac5a0a3cbdec;0x785b437200b38;0x17f1517a2daf7;0x1];[0x1;0x7faaaf275d7a1;0x19068127f9a40;0xf23c78abfa1f9;0x70406253b1188;0x968005978aad9;0x9c5bd7f2c9652;0xbc3ec2b4ddac1;0x27a5a9a099e6f;0xc441d61b435ed;0x251926b848cc];[0x0;0x1599e1ea0eb81;0x6c738bc6e8fb4;0x98491a7bef9e5;0x823703f5c522a;0x3d61c7bb8c766;0xb702a787a8e93;0x8bff95bd8596d;0x303656d94fe2a;0x81cbc3328da4d;0xe80b014f2d0af]];
 [[0xeec736e40bd83;0xc6f94fdb6a681;0x8243319251d9c;0xd1f0ee08498a2;0xef9874eb9fe9f;0x1820a335a6d82;0x5c20512e309c;0xac5edc39c36b0;0x65be19975fd44;0xb59a0582ce];[0x1;0xd3a89a3f84700;0x455f372305257;0x1ce93655c4221;0x30b79a8f1bf8e;0x88bb66e89f7e0;0xe9836818ab311;0x59eadc25a0bae;0x431af1c0150c9;0xe02bbcb228e5;0xea6a0c11e0896;0x1];[0x1;0x4de9175e4cdf9;0x4da3e98b6ec9e;0x23d8f03b61def;0x677e47dcfc866;0x5ecfcb21bd8d7;0x401a04689aa00;0x3ebf910fe61a2;0x9e82d96fb0fa4;0xa1bd0bfc9d3e9;0x228f69a020ce];[0x0;0x5ca8dbf26b8d3;0x2f60fa1bda0c9;0x639c1461a660d;0x58286785ed175;0xdb34c7dd3789d;0xc6c2c7fb1561c;0xdf982fd757afc;0x263ed6f5c3386;0xd253a19acbed4;0x15da46564fb64]];
 [[0xefaa0852be2d8;0xf1c41c7761324;0xa308649b1533b;0x62f67e5e75e24;0x7c4dcd82a9d17;0x3925d7d39f479;0x7ceaaf95a9d66;0x855344a4fd92d;0x406858b7c2f64;0x502e29cf4d7];[0x1;0xebe1c72635980;0xb2b5699b3b622;0x1f3578bb0ed04;0x532b2e615180b;0xb2eee6a0f9190;0x22dc2c07df4cd;0xeac226ea8a151;0x7eaf3874f4756;0x157ceb916682a;0x610a899b67ff4;0x1];[0x1;0x298143afa1240;0xc5825adb47f8f;0x4cb19b25c59e1;0xebb4a9c9c5bfb;0x9af10df8feada;0xf25cf3c561576;0x1dfe318ad5ce7;0xa9d076d2fce31;0x8af0eadc3a50f;0x1df422e49809];[0x0;0x89f3858ffa5f0;0x9d41e4ebc8cfa;0xc0fc62a46ebe5;0x393f83f0ae2eb;0xfee9d4873359a;0x746807c281fe0;0xbe87b7f54d524;0xba975c9b2ff1a;0x3fa9a5c4b18cb;0x9f7cee0f61a92]];
 [[0xff0f9c0186a98;0x948b3be198606;0x197a1d3e2ed23;0x26ce056396c6e;0x78463db3398a0;0xb5919b7addd2e;0x7ba47ea97834d;0x7017689ff1115;0xe7ac90fbc5872;0x5d405d53e75];[0x1;0xd74f0181e80a8;0xc640a3021879b;0x2593c3571a7e9;0x5142be788909e;0xdef92d1ef278e;0x2d7e47fae4900;0x591f01c29f1b8;0x4816b87ee389b;0xab38d1e25f76b;0x462e7bf1d9625;0x1];[0x1;0x304a1a7fdf640;0x3a6240c694dea;0xa8e40fbe85daa;0x62b6e2ed05456;0x86c8345f468a4;0x3059546702971;0x1531e0787909a;0x7a66a5c746658;0x53d8bf591b08;0x1eaf00c8817b];[0x0;0x6d7f7444e4aa0;0xe3209f424d0b2;0x6f425ff40431f;0xa53210a62d389;0x1bceb2aba50ad;0xf612012d89fe2;0x9c1d932790296;0x723d1d0e230b2;0xba1754ec159ca;0xb94f39120ab0e]];
 [[0xb142138d205ea;0x408fd4ccf4e08;0x56dbc67ca120e;0xdde9dd09a1c66;0xb3deee33ef077;0x41ec2005f6613;0x68d88aa3c333c;0x34034c0f5df;0xf193f89a5b4f2;0x3a7a42bcf49];[0x1;0x10e0181480b98;0x690726299704d;0xf963ec8363bd;0xd264b3242b402;0x210edd72de08e;0xb359c9b4d89d0;0x6887f7b78b72c;0xc04e5aab70964;0xd81b5d32099a0;0x8bec4b518d05a;0x1];[0x1;0x9d99c52d8b1a4;0x6090b2e07d4b1;0xa949cbaf82216;0x296b9b7ab322e;0x1d78386a1978d;0xd931d662f8f57;0x8d3f3c933da9f;0xa8298477eac9d;0x6342c39ab3afc;0x190a0522fe8e];[0x0;0x5d4bed76d635e;0xe47afac7b290d;0x8d11d17e44290;0x14a38efb3b445;0x34bd725f7d349;0x40ea64911422a;0x645584846b623;0xc4d990fe85221;0xece88d4bd6112;0x7459064132232]];
 [[0x4c56096772481;0x40c36a2133891;0xfbd6c5571790a;0xa4ef499cff602;0xb81ab99de941c;0xc483a88afafd2;0xbaeeea795efde;0xc492277e54a94;0x9e1db87ea4166;0x1b0e9159bbd];[0x1;0x900eb651e928a;0x418626c78e6b6;0x33c6139fc9e32;0x7030ad724a06a;0x55d1ea7876630;0xa954199490e3;0xf889b1b006897;0x6ad6f560ba65d;0xedeca08ec9314;0xcb9da85f3e0ec;0x1];[0x1;0x7c49a934e1a71;0x45348117eb018;0x22926aee03267;0x5b7b9c655959b;0xcd1d49837c01e;0x2c11f7fb9963c;0x6ee8656d62b1e;0xd3a1900bd256e;0x78719c297767b;0x18e9560f4f1d];[0x0;0xf2c6af1071fdb;0x8ec5a2a15f2a4;0x83837e56d7c0a;0x30438ff98c90b;0x609112c7d8f90;0x7c3977cedbf24;0xf80c969d3c56f;0x244b6e55eca5b;0xaedaba26e70fd;0x3614cd8da9550]];
 [[0x2c1ca4fded808;0xf0c552be841e1;0x510459d81f11b;0xf32ff2750471b;0xed134c8c9d27;0x15256d9383786;0xf13a271e9af2d;0xb6b3151e1c383;0x1af4d64ea5687;0xbd477134d];[0x1;0xa0a88d0828980;0x581830acbbb97;0xb8ab0a84a77e5;0x73337c9029d00;0x94f9666ebb379;0xb5041adf89fe3;0xbee19e42596c2;0xb99ef0459d4f2;0xf65c87bb6447a;0x70eac870f3b;0x2];[0x1;0x1b0efff3ddc40;0xdf2de58adc2d3;0xe839411916441;0xb63132273e89c;0x9c962f9806956;0xe639ca5f6ce33;0xa0f1bc445798c;0x23360c403bee3;0x8fd1ea7810636;0x17128ddf592c];[0x0;0xeb6e120527d50;0x5809911b5cf33;0x2a2e02a7be754;0x8ef8a31758cc2;0xace0d8ab7495d;0xfbd8a8a7b6dce;0x7e97bddab1bbf;0x52c3a2ced8b04;0x74cc1480e5f41;0x14214e3f1653]];
 [[0x4bc3888481986;0xac6093a4eb61e;0xb4e831cc1ec7;0x3dee97d9b69ac;0x91f475a26e416;0xe76bc98004a09;0x59f7fa59b37fd;0xd0d2f4ac4d54f;0xbc5e20626c7d4;0x7dd4b4aa611];[0x1;0xf2f757d393baa;0xf5f1c681ad212;0x45f899638cf40;0xd527d9fc6ca2;0x7a582ab06d8ce;0x64adc54babbdc;0x565cd25759163;0x296976987c8ee;0xdb015bb53c8a2;0x553ff63ec085;0x1];[0x1;0x92ee6840e05e4;0x13cada59e7f04;0xb09de117bee60;0x69b517ef43a74;0xe1a9740e21d6;0x977fa615a6a04;0x4e3df6c38cfef;0x8a49e576572a0;0x7fe4a66e04f49;0xced43b2611d];[0x0;0x135eb1c050992;0x26e6c5b8e2584;0x92bf5fc158ae;0x6c430508037e9;0xa4a8db8af34d7;0x1c89f507c8a37;0xed1c69f4d67ea;0xc7daabf5dfbcf;0xa38125aaccbbf;0xfb2dcdd513a6e]];
 [[0x7034baf54a659;0xe181ad5eba8de;0x92120e5d8c62b;0xa2ce71801b1a;0xcccead6d5dd8b;0xd69fd4b2d11c;0xf283dbf205931;0xbe51edf18977c;0x219b40e7267f4;0x630ca661ead];[0x1;0x23a910393c3bd;0x20469fac748d5;0x1f9360ce2d18a;0x6651b1737f8b6;0x39b50b2d17b02;0x6e69873b76859;0x69735985c7887;0x6796f60a0b1f4;0x7b89b1a65a44f;0x3a7220a856e60;0x1];[0x1;0x301642b33e561;0x421c2b4d02b78;0xbe83905b3d19c;0x344e37184b9c7;0x4de6e2f829606;0x876ae3739cdd9;0xf671fce92d8d6;0x11e055a7cb2c;0x4b2de6ffe3313;0x177013647bbb];[0x0;0x16a52fa16e68b;0xe4cd5fe1d7c23;0x1953690dbc032;0x7f5dea68ad84b;0xc0199ae1a65a8;0x24ca88557cc67;0x989fba4a3d550;0x4820a15e5d19;0x709bd5a51db93;0xc4e00c7756349]];
 [[0x1c8e2deb5bc9c;0x7d00a57ffec31;0x774dfdbb3c6ed;0xf9061746ba710;0x3b1406c916269;0x6ce291f07d7c6;0xa8a47ca4cbc74;0x71321d2a7402c;0x5dd8b82505689;0x76360d1a0d0];[0x1;0xd730aabcf2bd4;0x1e6f4b026faa3;0xece48afaa6fba;0x874f7f0179317;0xf9014dfb39406;0xb3012ea72fcdf;0x96822da7fb722;0xb4cece23415ee;0x69e5f111102ee;0x145f59fb3df14;0x1];[0x1;0xcdc5402be2610;0x34ecd8fbed61a;0xd49c4f9c3a46a;0x4d462f8499019;0xefcb54b04bef1;0x34ce0db40a136;0xd992378d22185;0xb44bd259d678a;0xc8499869b60c;0x1ea794e7d595];[0x0;0x7e955f3f50ee8;0x26e8b3405bd90;0x610d65f53dd79;0x779741245666;0xeeb53b157b871;0xc31f22d10a394;0x1cec1e295ac14;0x88273cf6d9f3e;0xf1d9f72ac95d7;0xec0e4d3cc7472]];
 [[0x9995100e32177;0xd0461bbd00732;0x672314fc97c8d;0xbce400089ede2;0x752e32988b88b;0x23a479a91e573;0xd0c77783e4cc;0x55979dec4cffb;0x3bc4d4d3babd;0x4dedfcf0e1f];[0x1;0x5995e395650c2;0xf9e47b7cc5284;0x2dc964623d908;0xb5600392464b2;0x85cbcbd54dc3b;0xf0d46e40d8c91;0xc3bb84fca7d4a;0x41a33c506bdb0;0x4f64d79457ef3;0x65a759a9f8685;0x1];[0x1;0xf0b0e3fbc29c1;0x692a1493a4e06;0x4f49af61450bd;0xfe836c8301352;0x28f44fa332fa3;0x88aed6b78e5ee;0x2ffe253285249;0x951994e96d911;0xb825f61bb1da8;0x218f010f57dd];[0x0;0xe2dfea0ac556f;0x59e2938fb9526;0x95ded4a17dc79;0x9fd9636f76da9;0x8a3c114c03b13;0xae2ec687e75ba;0x95da73a44f38e;0xd0171aff6d98c;0x2d0149e61c726;0x9c0243a73d33b]];
 [[0x4098c7927a5a2;0x37648c68e49ef;0x2f18cb20c413b;0x9110cc96be347;0x8bfa4c7d53a34;0xe2e0626c456e;0x7dc71cd17d85d;0x5e9e964918f6f;0x7ac8697f84269;0x50bbfb162bc];[0x1;0xccb543a1f3dcc;0x8e002f4551529;0xa63c293f41ffb;0x537ca3866bc;0xdd4e0bb0ace91;0x50a686f9dd3be;0xa19ebb231ab8;0xa9ebba6ae9b63;0xa9d7d1fe20fa6;0x600bcd3300296;0x1];[0x1;0x5af276ea4d844;0x4674d4053dd3a;0x741c7176d44fc;0xe1b8e8830b327;0x6c472c725fc9f;0x37cf3098ac750;0xdda3fa91f002e;0x819498917ffa9;0xd247c571cffa0;0x20ef78e0b504];[0x0;0xa4af6a3efe3ae;0x6534eb45777;0xdb0a96b43279f;0xc84b1427799a0;0x355124ea73083;0x6c24489274dc8;0x440ab0223e5c3;0xfef9f8efe73bb;0x915b89ec18e20;0xa12e09439e0d0]];
 [[0xddb10027d9f5d;0x9945dc14d894f;0xdc9204d23e2db;0x4cb7ba37fc3e;0x4b9eae159f475;0xa7e3a00455386;0x4dfa36a1473e1;0x520ecc16d174c;0xaaee604ad6f8a;0x3b4b5134c6a];[0x1;0xab2d92f866060;0x8d04f12cea2ac;0xa71304ae256f6;0x55ebec3767808;0x840b7dab450a1;0x8af61d1c87634;0xb5d169b0cc43c;0xc8c446cb360c0;0xb3a1dfb39605a;0x8aa5c27a49184;0x1];[0x1;0x7e1762d0b78b9;0x1aba91f6b6bda;0x99d0ecbca4ba3;0xeb5cadd645f0b;0x978a22597aa37;0xab39184e9a113;0x988bf57ab301d;0xd69e35413561c;0x6ec0ec78864ae;0x1cefff940067];[0x0;0xcad8b051676ae;0xfeeba7f69ca30;0x1c7bec6e8ae63;0x280baf655e36c;0x97c53770a8f85;0xfcd18ac06d522;0x45bc020f28026;0x2ffec2b5918cb;0x59e33db9d7a4b;0x7658eafdf4800]]]
 (V [0xe14984e77ae58;0x1f08fcaf60ba6;0xf4bb01ec5a3c0;0xf3d17db0cab63;0xfdce573894b6e;0x94b4117c38c41;0xf6b73849602fe;0x965780a025152;0xe8a2c584cef7f;0x35bfa95b2cd] [0x842b78589318c;0xe436ed00f9f8b;0x8a7ab99359dc6;0x2984940ae578c;0xb44d56bd98957;0xb385121ff45cd;0xf3b10f5ceefc6;0x3c279a74e1d28;0xd3a1a83d62aa0;0x7b7fe889105]) [[0x15324f477f58e;0xff34c4f5875f2;0x68a93d0285b4;0xf36e638eb7cec;0xe71a97c10616d;0xdf1e74275fff5;0x7f3a8ca9cab65;0x356d81a6924b2;0xc10767e909471;0x7e0e1a298d0];[0x1;0xc6bca7e24269e;0x26f42e9617e3;0xdf450659c1934;0x3e1fe73b9f2c6;0x3076e3e261179;0xdc5f97f71c95f;0x6111c2276607a;0x7aae490b1413;0x736d83efdc19f;0x49be58885beb;0x1];[0x1;0x94c08ad361484;0x3462eb6394121;0x935bbbabb92b8;0xefc1a402f2eca;0xbbe924c7e341c;0xe386d5f5e000e;0x9293dde28ff26;0x90b9a6f0999a8;0x9018013c5e427;0x1040d2e4dba6];[0x0;0xc3fceebd3529e;0x25b2f1fb9f7b1;0xe2cad895c39aa;0x8fb22927b9c79;0x69bbeeabbb35;0xbebaba9d21370;0x116acc3abd2b3;0x4a46bc466f0a7;0x4db471b4db6bf;0xfb785b5bf2227]]
 [((V [0x629a24160f8fc;0xe15969af1f55f;0x5040f60be5bdd;0xac5301675dc8d;0xe53d126f0f3cd;0x28ec62f25823a;0x6e98722ed2b2b;0x5637a785b899c;0xe65f6fb6216d5;0x21c99872871] [0x8514f5b87e0ee;0x20680b14a302;0x73da5108c7b18;0x9b13d4bbae789;0x1d947d7ed8c45;0x28690e92ec8b2;0x898462aa2ac12;0xb339489c166c4;0x3ffcd3e2613fd;0x5531dd1be45]),[[0xfa4de664668e2;0x380e3bfde54c4;0x108d6820191d;0x3eb5b2d9ca7e7;0x65ed9da4e0d95;0xc8deae5b6b1e5;0x63c19548c1602;0xb5ada3a3a4cd3;0x6fce76ca69057;0x2445b460d8a];[0x76815c16173d1;0x86ef994300c8a;0xce3eee94f3b7e;0x73cb985aa5a51;0xe4b40a333c2d9;0x982abbbca2b21;0x67a6932ff6035;0xa8c7c227d376d;0x8b2c3234247dd;0x4320e8e6f66];[0x1;0x5198679d53a40;0xec28f49b859b4;0xd22f764962559;0xf0d55d2e3049d;0x90e767ffee7;0x1c4e23c7d6922;0xd6fc1dd8b7d9e;0xd6ca10f506104;0xc2f87b00941ab;0x6faffa921f7];[0x1;0x8e0b43c305030;0xe2ba94582fb00;0xecdbdb9d75dd0;0x6e6f0d7f5e8f9;0x4a8bf859635a4;0xcb698df7d3c0a;0x4328ecd67cc0f;0xf32cdd7d60f14;0x9e32a93e001ff;0x14cc700a3598];[0x1;0x5b2635f6fb544;0x89340ebadcb25;0x669fd49bd0809;0xc6648ffffc15a;0x6792de948c614;0x46ce3eca17ea4;0x3dd006218c782;0xa697be59e547f;0xec7b870de6ac5;0x1104a7ae5d13];[0x0;0x8443286c2912a;0xd3e3377ae7ad0;0xeab6a82e2c51b;0xd06849cc57ccb;0x6a02f0f55a89e;0xb51694098c348;0xad8ea6818ac30;0xf50b1ea47a665;0x2da5d4d746d1a;0x4713f2fe4feb6]]);
 ((V [0xa26f1b3aecfdf;0x1df045dc7787;0x397522c88dc2c;0xd1a510cb865c6;0x2d79ea3f6114;0xc96bc838ca11d;0xa6a10f328670;0x1a2b8c9b5ee63;0xfda247621f694;0x26df0e0ad28] [0xf040c180171dd;0xf30a537d86e33;0x55fd815f5018e;0x6d8af3728515e;0x1ac00d26c18f3;0x15e7dc58dfb90;0xe55a06869eaca;0x75f053f5093b6;0xe1b43478e3da9;0x4b0f25747d5]),[[0x5e0147b70176d;0x19fbc38644edd;0x2bd9fde48f654;0x8a0ee854fd52e;0xacd1ed7c55b60;0xf89123b9a36cd;0x47023742d74d3;0x72dc7386f188f;0x4bfdb5b0f1316;0xa0fca22c03];[0x24df47bc61a1d;0xaaecf29e4bf69;0xabf61e5305e07;0x533bbcccaec6e;0x5c72527985f98;0xf630e6ba5354d;0x6cf5312af0437;0xb7211e934792f;0xe6a4132103438;0x2189c855aac];[0x1;0x9f64053d3cf10;0xa6d0562d8b7ad;0x95e7457f4be59;0xd8c4874c8cf41;0xbb5a9fdcd783b;0x787b12fcdacea;0x73c017724ba53;0xe3950bca0a5da;0x65155fe1f955;0x3a28608ecab];[0x1;0xdb6a57a84e5ec;0xf25d1274e4b23;0x4abf7fddb8fdd;0xcd5bfa59730eb;0xfb633a228cec5;0x91e657889b3fb;0x7afb4c443ad2a;0x9104fb46ce22;0x68b289734b017;0xbbd5e2b22e6];[0x1;0xe2fb4c376bb59;0xb6f2558e2ac09;0x6fdf35fde34a5;0x37d65603aad6;0xe3e40ee84b2a8;0xb36991b4ad94f;0x267edc5a2c498;0x8ac609f2f4efc;0x649b7e1f7fcba;0xd41a0457b43];[0x0;0xb40d3b3db7524;0xb72005ef01c67;0xef94a3c6be9ec;0x532bcf59154e5;0x9284990c66d19;0xa34dfd6564a7;0xc3033b9ccfa9;0x667347e0c2b70;0x8afd33a8f788b;0x12e8bbbcc779a]]);
 ((V [0x6d84a60387837;0x4ad5b82d57101;0x6d6fd45259d87;0x1dd9e245fcfd7;0x6e2e9eb8432ac;0x4f99fd28c103b;0x3cc2ba95ec1b2;0x9b10da3b9101c;0x380069f51233c;0x285ef3ffc4c] [0x53bc1804b0b56;0xf5cfc518b260b;0x359c1b6ae5270;0x1e90b9cc7cca3;0x75a0616cc7408;0x38ca044fe814f;0x9c1e089e7f595;0xb6d6930983284;0xc5cd75f8aca50;0x13bbe0bd528]),[[0x1831783648267;0x6855473860f9a;0x69e8beb43af58;0x3230f59b055c9;0xb2f0cd61302a4;0xf4a1d568be0ef;0x1cbb4121da5ce;0x6aec96dda22c2;0x80439d7b6d3fa;0x489590d3efa];[0x5e5e3fbb5f67b;0x2d9ad8beabd3f;0xfd640f6c32b;0xe56b99983f424;0x39c46300e2979;0x92c853680cb88;0xe9647bc16324;0xe1c38c2d03fc9;0x9afdd07c99b7c;0x335f6af5f6c];[0x1;0xbeeaad1ad21b1;0xb07e9b9cd965b;0xa0a66e60ad9b7;0x39593d693be61;0x450491ab64c1c;0xb98aad8ef9bb2;0x3120c85d84a1a;0x43d77e82c3dea;0xde9fe99d0b93e;0x5af0e0e2914];[0x1;0x71d081bdc5776;0x5bada0527ff3b;0xc36aa01860f4d;0xe899b98a96d83;0x77cde3e49742c;0xf162c516bfec7;0x831a17640dcdb;0x51deb09c155a1;0x52eb3d7374fa9;0xdf1c0e82e53];[0x1;0x5e25458ad37e1;0xcaccf027d68a1;0xb96fc965e0d0e;0x41225608b2783;0xa00a21468724a;0xf2dda3998cc1e;0xe71eb4713b6f3;0xbe45c908a3772;0x1369045abdc48;0xc3112e7894e];[0x0;0x1c1633764214f;0x8e6f65a9c6def;0xdd4fc6b61fe54;0xb7ddcdbbf7b9b;0x3aaca5d576455;0xf92b73d9be5a2;0x24c41eaae77f6;0x8abe7fbbabf76;0x520ba709702ea;0x90b5477a61ca2]]);
 ((V [0x5677f4cd0e64c;0x803ce3bb82ec7;0x2768d495aa828;0x5797ba98069a6;0x2db1f360eb433;0x4978fc64f8d59;0xeaaeefa4426b;0x9e444be485031;0x1ff5976138b72;0x19d2fdf0205] [0xa3b2da2e1c8ec;0x5a3d5c6c7e618;0xaba2c4f3513d;0x5ee6e9976ebea;0x9c207c8d66ef9;0xd19682d2c566d;0x2512f7118d2c5;0x542c62656c016;0x3856b80f5afeb;0x12d1ea2a05]),[[0xf9bd793ae511b;0x3d58b8c53de4b;0x643c10dbf1a92;0x828d8e987e01b;0xb26f9a009e565;0x312f493db236c;0x8dfd28bd49626;0xb7d2bf3c7ee76;0x89deeb2f4f63c;0x5622b93e390];[0xea5c23c2559d1;0x10964dc9585bc;0xda51b1538d71a;0x2049f5550726;0x5487eb4a5cbb;0xbc95084490c7e;0x757dcee68bbed;0x64142445485c7;0x750c7e947f0ab;0x4a5ee022694];[0x1;0xa156b70dc3841;0x3864b82eb058;0xd808bcba5fb2;0xa48cb29a9660d;0x4cf85de095a69;0xba34da7a982c4;0xb5748fb4c9c1a;0x7104570c06eec;0xc543e31c00a2d;0x88022154c6c];[0x1;0xdeba98b0283e4;0xbe2c53e60f579;0xfb17d79f5f268;0xb8e9929733363;0x95c173f46197c;0x69fe97b465d17;0xcf8f8d10e134b;0xaedb3c527c1a6;0x76ffd6304d8f;0x1a3aa15e266f];[0x1;0x251aed5a770c9;0xe8617e1c0e418;0xff7c86ecb2715;0x5dfe989c538c3;0x9487aa9f6397d;0x37e0840a7d7e1;0xcadd97e70d3f1;0xb45b4388e5ec3;0xa22e47fdabd0c;0x9b2b198841e];[0x0;0x588727f28e762;0x186789ddffb7a;0x7cbee97b63201;0xfa3752107f99;0xa9490f022b077;0x70e7ae156365b;0x41006ce98f838;0x21f7c45d9531f;0x1c0ee39216b2c;0xac7b8d327d9f1]]);
 ((V [0xbc67d5dc14a7f;0x96e3efb35a335;0x68a254e3c6afa;0x48ed0b09b3ebc;0x36b396e213c75;0xc3e825845743f;0x6d779e7913898;0x8f736ca1b29bc;0x297c7a32c7a89;0x6a9010337b3] [0x4a3f0e1274caa;0xdbc8d004c0fda;0x7d02bc4f36e88;0xe7aca0e66dd6;0x6df76bc388780;0x35d97a9f76522;0x69171402a378c;0xf5866f07f08f8;0xce0ceb95a63fe;0x16b5dd93416]),[[0xcebf0292b8e9f;0x28bfd00393b13;0x7e681472135c3;0x5fa9f7e8d45ae;0x72dfa0e06eb0d;0x21b6fc9fe1373;0x9c52d3fe4f84f;0x113906f97aa26;0xfba67e22dd516;0x7222466ba13];[0x338bd63b873d9;0xa4d174206504d;0x1c023f5616559;0x32205080a6d08;0xa84c70352e9e9;0xd071c40f31ed0;0x1b44d11f47f42;0x97c9941b316b;0x344b9940a10ea;0x42f85fd19d7];[0x1;0xe2d4f50561590;0x7b27d84539fb4;0xa201040d53b6c;0xc409c9e35b10c;0xab32028d08dd;0x60695e4cf86a6;0xd84aa8af43b72;0xcad945db545aa;0x37268f754a4c5;0x80baf8a63a9];[0x1;0xa7ed558fcea8;0x7bc82c33a3f80;0x91a399fde2b35;0x80b95cc1a62b5;0xde63b18d73392;0x289ef2c8c71d1;0x3d988a9122225;0x581baf2f708d0;0x1e62b66a3937a;0x18fb93f1468d];[0x1;0xb4b64f8bb1c31;0x459d259adf6c9;0xd5d0df8a2a003;0xc19d826ff145c;0x49ce718e62144;0x3efa17dbe0fd8;0x3508dc8d8d246;0xed2cbb942d8f7;0x7ec32f705a13c;0xd6a7018a308];[0x0;0x903ce3c69afc;0x1b5cac7e9642b;0x4c0be94635620;0xb050afd152ea4;0x77f36624cb196;0x1ffe00b8dbd04;0xb868957ac9292;0xac51c5379d546;0xf74b065df7369;0xe43eeb225a3c9]]);
 ((V [0xa45c2dfac3fe8;0x9fcdd6f5eb659;0xa8b4df6e4a9dd;0x8f6d268df167;0xca7aee04ccb6f;0xa2835b8678c5a;0xaa73c0102e3e0;0xc83c90a2a8353;0x8bea09d4d4ae2;0x56bee0a8c2f] [0x843de20369593;0x818b776048511;0xdfb9ca87eb9eb;0xeab1860724fa6;0x720b5f9dde125;0x3eaa3b88493bc;0x6f6c52dfbdb87;0xf5fff36fa037a;0x5d5b39f1fd7e;0x4f5e25efe8d]),[[0xb6cc81c6e72fa;0xa5d10ece28221;0xfd7ec42c1c742;0x44334a962524;0xf48d788baba9b;0x73ad7526c2c41;0x34915a5d64333;0xde197a587bc72;0xbdf2435175f0c;0xf4ec50d22];[0x6cd1d404e1049;0xf0ed9db1999f4;0x46c44f5cbec63;0xe9ccb057d726;0x75bef7b108173;0xd18764f53d3ce;0x7b8ac1e83cdf5;0xf8858d6da4378;0xdf321041473be;0x458e968ac38];[0x1;0x711f68fb81c71;0xb15bc0581090b;0xbac1311912bf2;0xef6ee8726d83c;0x6ed120cf8d9d;0x516da77b5039c;0x16ebda54a87cd;0x4a51ef24a7116;0xdf58897e1ece2;0x3265f01bcd2];[0x1;0x58c958879ef88;0xe45060296bad3;0x3fbe531742abf;0xfa0ea860e4bfd;0xfb10924a61905;0x460602bb8ac1e;0x6061b3dbdece5;0xf4d283efa2a20;0x1f9ef2876e7c9;0x1a1009e0884f];[0x1;0x867eede1a8fe4;0x44b6e495c32b2;0x138c782889f88;0xf1fd38e3ed7af;0xb3aaaaec4f11a;0x9396f946d8f71;0x3c378986b2575;0xa1f940c49ebdf;0x5b13367da290;0x257bc2d78ca5];[0x0;0x10ff1d5ba37e4;0xcb90dceca1c63;0xe5bae8ac4b43c;0x38d0d7f6ada4f;0x1a4da041e7a4f;0xeb68e6e03f599;0x4e220131668e2;0x718d9266229a;0xe50afd6e1a620;0x11ecb7247a8c]]);
 ((V [0x9bd56c002e4b;0xddd1a9e874f15;0x8ee445cf9f0e4;0x93c556eb574f8;0x5e074f74bd22a;0x13b6311e82516;0x1849608016f84;0x9f7698ddd16aa;0x7b83e014f4b1f;0x244145a1146] [0x79a38c263e597;0xa1726d0a5e902;0x703c9638624b6;0x408009b173849;0x73e368d6cf47d;0x3b692ac78dd22;0xb05d0948e4a6a;0x33560b7cacc17;0xf998ca22d925;0x78059109711]),[[0xdf8bf4b5dd201;0xed077d271f1be;0x4e6285ed9f063;0x801ba29a011aa;0xf3a0e51b21225;0xc989d1d6bf8ed;0x2b24d79a9a482;0x19098de3c55ec;0x816a142eabfd8;0x1cf663bb1c8];[0x9f070c318562c;0x61148d483c2d4;0x5484920fcef8b;0x71c0a8a91d9fb;0xf13e0317009fc;0xad3c2940e7895;0xab26e2d274c8f;0xeda99d94d13c4;0x55673e766dfbf;0x624d6e22d58];[0x1;0x39725395f3e40;0x5d9016271cc9a;0x1dbb885d9c009;0x91ec9ed9b0bab;0x592428864531c;0x6c369b3e3ba09;0x3f3a9649fa528;0xb4e7a1d6fdbcf;0xa11627d787402;0x89d141be65b];[0x1;0x1a2f19db95dc6;0xcc0d090aba98f;0xfe59940e475b1;0x327f343e9d488;0x52d583e265599;0x7c780ed75df22;0xbbfdd4aed71d4;0x58691e828c6c3;0x613202ea6c0d3;0x229e5d6a88bf];[0x1;0xbb78f29e20571;0xb40be588c8240;0xaa236deb1117c;0x1c6dab6faef85;0x94b4cfb39b286;0x37c6cb820dabb;0xe6fa0267f9068;0x1fab1663e8c91;0xcb45907b42a41;0x19cf067fbb34];[0x0;0xcb82df23e26b4;0xae4be750ec620;0x945bb2d442914;0x36e5841da3bfd;0xa42cdf9a22641;0x909ffa6580bc7;0x94ff485fc5ce7;0x53fd2c843fc7d;0xf79e5b41499f5;0x38866316a80e8]]);
 ((V [0xbc09431e05973;0x58c80082beca9;0x4b96cd168e55f;0x122517e68910;0x5ff546b953f05;0x8af2c56d9ef24;0x8dbe1ed5237d5;0x42af53e73f08b;0x133d837ea19fa;0x63dea0eab3c] [0x84f86cabb2640;0x982aa7b2761a2;0xe8fe3db8f10ab;0x7c21edcaa9698;0x59d74f425ff51;0x9b79beff8432b;0x9ba977ec6648c;0xbc462ceadfa71;0x9edffb3ce79ba;0x55e96677b8a]),[[0x3e346a0d029c7;0x4316f0bb2dc5e;0x2362dded4fbe0;0x227d8c483a5e7;0xe84dc33568d61;0x1497500024d02;0x4cc9b2c06a73d;0x60c5c6d2672e7;0x47e21caac012a;0x23274bad9b7];[0x2d019b312ba5;0x75524bf998634;0x4820d899a230e;0xeac45ba7e1d17;0xc5ba4e93f1787;0xc1e0adaec1f2c;0x918bd011158cc;0x21ddc58ce642c;0xcf9cac6b75507;0x58517f8f33e];[0x1;0xc939638eeffe9;0x1b0cf2e253244;0x69b3a9f803ad1;0x8a3268b0a20ba;0x1d1977f1bc24e;0x5da263115550;0x13ae6260bf564;0x780e884cbcc06;0x66de662e9a840;0xa65e26aaeee];[0x1;0x84e4d7a1fc5a2;0x1831898a74016;0x20199009a45af;0x9587c52944b36;0x93646373de8d2;0xe25e66248e1a3;0xb9583dac9ac8f;0x97856f26350bb;0xc9bff66d476a5;0x1cffc40b9936];[0x1;0x4c982bb957721;0x6e88af92e1c8f;0xbdf2da2727db8;0xb69afa157cc8;0x257643ed1842e;0x87d3736d6b83e;0x6c397fd3b7dfb;0xc5c69f8d0c697;0x47b0da622b6a6;0x14f1acee67d9];[0x0;0xcbc0705ac8e5f;0xbf554292ac05a;0x7d3e8018c78e4;0xe6ada577e90ac;0xd53d02a1b6088;0x73a0aa33beaca;0xccb50f008e232;0xa9f540cb6fa39;0xcf6c0f2acb751;0x44c468295dc38]]);
 ((V [0x8e315fa900da4;0x214aeec0f5dc1;0xe65f8f76849a3;0x79095ce712fe4;0xdd05d7e8cd99f;0x370b26a281777;0x31dbde4bc74c1;0xef14184502a67;0xbd0cc6cd15fa2;0x3074ec96847] [0x679302962e98f;0xd90f58e396ab4;0x3e0df443d0d50;0x22bd92f8c14b1;0xda3329a63c41b;0xaa73a689a8286;0xf815e8394bc22;0xd53c3581f37d3;0x55a9a311eaba4;0x65009f9e1b2]),[[0xb64bda2a179e1;0xd876f8cbb3a97;0xe4817abb96ff5;0x5aaecb81ade35;0xd9bb5161ff1cc;0x9b8d0fc54de6f;0x703ddfca6b503;0xba118edf1a072;0xf13103ce79c0a;0x5e7f23caaf1];[0xbd885f95cdfc3;0x20cc719b4fb3c;0x66af7422f61ed;0x2c2a2b8d7656e;0x9631bdfd5eab4;0xd6d6e1a8b7515;0xb10bc40047fd0;0xca863bbf3a3fe;0xe318480c79b56;0x456333bc165];[0x1;0x37b35740cac99;0xffb1174a9c811;0xf203f033b160d;0x4cceb3598b266;0x739f23e783b49;0xa7d91f5b45e08;0x335346d8f55f8;0x7f823765eda36;0x190ed7c9d877f;0x3cda8356264];[0x1;0xa5d4a0cf0b480;0x8c99a78602746;0x7fab973e91b98;0xceccd8877255f;0xc47f68ecd9b40;0x5e4c007dbe41a;0x52a396fbfc806;0x3e7c1de85aa1;0x54a751399454;0x12179bcb5a1a];[0x1;0xf99592d733d31;0x7b5fe5287750f;0xffa10043ebc8;0x9f20ca2350381;0xcc47aa57fa32b;0x2200d25372955;0x54edc7198917e;0xf8ba78d9ebc19;0x132996386122a;0x1aaa121fd169];[0x0;0x90fe12902fc62;0x85598f3dca8da;0x694d576487683;0xc76f9994ae498;0x952cc17a98128;0xba5b340f0f392;0x2be3ab7b4bb6f;0x5ef1bc637a010;0xb177fbf2a8800;0xbc0ce75eac545]]);
 ((V [0x51b1cebc5fa74;0x7971877eab42f;0x512e52dcf508a;0xa456f44a17e40;0xa32607c8dfae;0xe5bedbfece6a2;0x396f67a7d3ac1;0x6498b804daa2f;0x22e2ef0bef132;0x4b8f5cd2dee] [0x84a1301a387ec;0x521f5ab4d2abf;0x2dda50e9efdf8;0x3442be8fd7f2d;0xfd70e36d22a72;0x8062db7e6559e;0x77cff34badb87;0xd6b160cd5789;0x48ec4b5df8204;0x76a6791507e]),[[0xb8a94fe9b0d3;0xe000c665e61bd;0xe40426d9297b6;0x262e16a902797;0x9a2872a0ecb5d;0x97ddbc5d8a47d;0x13904f336d24d;0xe331749318ce0;0xca5bab2b79a35;0x212d80596fc];[0x90e4997f5f105;0xa429ebc09827e;0x8b1f338826296;0xe76e5e89262a3;0x569495f21a92d;0x9b051b047c347;0xe107717376ed1;0xca546a38ab463;0xdb65bfcd5577e;0x6a512d5931b];[0x1;0x69fb4cbbc9810;0xf9e20ac03157b;0x6f5f26974c80d;0xef9b1e9cc1fba;0x6c1ed7ca1974f;0xdf8d7c24a10fb;0x7b0173dde3b86;0xb0bcd68f9df18;0x2b62c984564f8;0xc24a3e72fa0];[0x1;0xc978074285d1a;0xf71b9d0822a13;0x861f3d097964c;0xd6f95a3d55277;0x1f427c7f72ede;0xf41c1f4ec012c;0x54e5d2e435078;0x50a427db136bd;0xdb2a503b10377;0x2498aeecb04b];[0x1;0xf29e1e9e86cd9;0x7c2e880675872;0xafb9df9f2c8b3;0x797148f98815a;0xe176402f3c219;0x69f23d3a168fe;0x194190bfa9916;0xab15db265b3b0;0x8601fa3a4f8a3;0x15058e5a4f27];[0x0;0x673267bd6b743;0x5920f8e157fc;0x988b0223637;0xf53512a364967;0x964bd5281e4f3;0x89658a31fc128;0x4ad1153708437;0xdab0d4b0a2999;0x375660d35364d;0x40bdd98e6a5e3]]);
 ((V [0x96cf8d05873a9;0x4655c80b51bb5;0x5524ad1bf6a31;0x1ef397210bd1d;0xb29b0765deec9;0x47539fbfd5b87;0xc079283553a26;0xe6a13b1cb36d;0xc8baca0e72d82;0x4e9f26e1939] [0x95216ded3d209;0x94e9405ab0d8;0xe16b0fc3fa237;0x1610b297d8ed0;0xc8e03633b3ab7;0x27158315a5274;0x5042f748aebe4;0x3323a0a50242c;0xbbc0eaaf45f33;0x13af46ce23f]),[[0xf9b5e02b40bf8;0x3586725c557a2;0x11fe10f5f8a4;0xea9d54e870718;0x1f7d4c1cb06f6;0xa44caf8dd8f7a;0x6f4318bb4b334;0xd3896612298c0;0xc57449bd265ed;0x7d6cb24c4b0];[0x915d6abf85a92;0x5cfb488b8fbab;0x9d784ba1885b7;0x62aae16f693a3;0x2649c028cb004;0x3ba1c636ba36f;0xed3d51e9c26c8;0x112bdb9091aba;0x545bfab51945c;0x188965e8976];[0x1;0xfff3d95035390;0x40b3573ffb444;0x85604b87bad0d;0xf635932e280bc;0x717ca87717d00;0x250c5f1a3b298;0x66f50566f177a;0xc119d72018596;0xf003726fc5777;0x4782a78671];[0x0;0xc571db3a92c0;0x314a1a047239d;0x6bab74b30eb79;0x64f8a0b99edba;0xa97e66641c01b;0x1361c15bf6db2;0x49e9ba0961141;0xbfd201dd213ca;0xc53dcff4a6810;0x554e44824c1];[0x1;0x7828398e39c40;0xf4be3f966eb21;0x4ee646434e9fb;0x9b99c2575fc5c;0x5a23912e2fcbf;0xace68b87d50c1;0x518d1c9caf894;0xf86c05ffd1d90;0x2b29c234d535d;0x150951883c71];[0x0;0x7593959d20cd0;0xcf0a0f377ee1d;0xadc6a78e70dd;0xa0432f290633;0x569e61a9124f8;0x1fccd57985469;0x1a10fb4c0397a;0x9e25608b4fe6e;0xbd645777ea4c8;0xfa3f25c6336ae]]);
 ((V [0xee25c1594fe35;0x57abdd703f6ef;0x3047bac250f41;0x49c1334b35241;0xab628b3ae02fd;0x3b36d2e504e4;0xb33778601ddc;0x116721157a64a;0xde8184bd0ff4f;0x43ff565b896] [0xf54831f3e620c;0xf1f9c085e3254;0xec90ab89a0009;0x581b923337e9b;0xabe04058f8793;0xe7ec4984212e4;0x3eb6e80a5b719;0x9204e4ac70eba;0xcb30a8e55938b;0x784210fff41]),[[0xfd36913c0f0a9;0x8ff706fd9d7b2;0x15da247a51d2f;0x4e7160b871335;0x1b9b75bb8041;0xb2176097e06a0;0x9be7f6d7e9487;0x8c00949dcff7;0xd757b65a70d6e;0x660f3bf00e2];[0x6d25871347411;0xdd244c7ee4902;0x62e39e8a5f07a;0xa1b68852e45ce;0x82f276f3cff89;0x59bf854a36f8f;0x4254ba2218aa1;0x96172a46eab3f;0x724b853de2536;0x6a6ea5f61f8];[0x1;0x11352b05e601;0x54cd9fb93bdf1;0x50787b1d419da;0xb4ac265a7bc70;0xf80c39ddf7e9f;0x4591feefe9d57;0x232c4c292a726;0x1cfb00ed9ae64;0xd491cb33ef1ed;0xa4928ea6aee];[0x1;0xc7c5b967a44c2;0x8c376b3367845;0xd29556df49ed7;0xd96ea352b867;0x59e9e314bd7b3;0x3a80b316ac9e2;0xc589b74dbb510;0xee906bfa6da9b;0x5588a3f8f5058;0x25f33db68309];[0x1;0x101d267e05001;0xd392fcc120170;0xb20202c152962;0xfca553812e221;0x238815a458968;0x59c0a73207a0c;0x3270e52c98d3d;0xa112973fcdcd3;0x129b7d3f851cc;0x1711afee6a26];[0x0;0xf137aaeeb455;0x9a8cbd810864f;0x68f46cee23b94;0xb598ca3ee437d;0xb9817b40ffb49;0xe6b4338afae4c;0xb33e259b4549;0x22efa31e0c02f;0xbeea882104b53;0xcb751d0a4f0fa]]);
 ((V [0x16ecc5864b50e;0xf396e7f7fb7ad;0x72fd195cf8dc6;0xf998f445a5be;0x28f558f30551d;0x6db87f4e34ecd;0xcd8f0baddae81;0x871a4ccfc4ba;0x1f1a211c5c3f8;0x72271dd52b] [0x1f9ba976774aa;0xc7789b82fa96;0x19b4eccd7c820;0xb0cc63a91f45c;0x4882ce2b1f8fd;0x6ac677637d0f9;0xa3b55a6141672;0x335f39853822f;0x2c40000c314f;0x71fafa87232]),[[0x957798fcb29a7;0x26ed2b457fbcb;0xbb6e02cefc7d5;0xf0ff1708d35c3;0x19c3a2040d4f9;0x41b15b8a9770d;0xef3fbb78f1e56;0x10f938059c3fd;0x7d70b2b87f272;0x2e4c7415bd3];[0xb7aa30ccefefd;0x3f56dd2cf2bcd;0xc6ad1bee6b908;0x2ce20db3ec73e;0x675c13d9d215a;0xad39c7d8bd40e;0xcd3e59d02497;0xaed404aa74b04;0x9c4698fe06b37;0x7de32d505f8];[0x1;0x8201f1a45dce9;0x5473c7090cd77;0x8162d1702048a;0x1fd0bb2588dd4;0x1945900deec2c;0xc7426a9ca295d;0x5ca3dc283733e;0xc3a4de10fbe29;0x9a5cf43dfaacf;0xd7a70ede9c3];[0x1;0x6c0edc9760528;0xf3601ee4d4a65;0xd9cf758e207d4;0x6ebf366a13172;0xb60f9bc24000e;0xaf140b5dd4d54;0xbd261cc443967;0x61336bc8f8187;0xa9237a760f665;0x29c53eb157dc];[0x1;0x9ce742a4f4561;0xe04f9d0840a8c;0x4218726f7e7bf;0xeefb87502e3e5;0x11fd1b1d2a0f7;0x749a678f341e8;0x7d6e71eae5d51;0x8f5fd1849b188;0x3441f8a744f80;0x10d831c0ee80];[0x0;0x21614e31a2dc6;0x2fdf644dbdbe0;0xfae5bb6d96d0a;0x3f9eba3f31d87;0xa03c36ccc4fd;0x42b17964ff425;0xc1cb967de1019;0xd415939bc939c;0xcfd62670eb56;0x5b08be44f98a5]]);
 ((V [0xa0b904b167be;0x69fd6eacafc3b;0x5c80c01171d09;0xaa7758ed73f94;0x50a0ff5063305;0x3d939813bb34;0xdf0c69712fd7;0x419e861a629f4;0xc5fa2b76a8685;0x658f365803e] [0x86c0b971cd247;0xd5eada6b246ab;0x69ebf0c3c8b49;0xabef139935fe5;0x4547a843e6188;0x45f7fce047888;0xfd79a1cc14e1c;0x8cadd9e0be49;0x90a0251c7730c;0x5231c00f3bc]),[[0xd9b53896d995c;0xfa92777b327f5;0x44e8c0f7c4590;0xeb45e833e181a;0xc2cb53b737501;0x1afe5e4e4f619;0x210a2b31ad161;0xae375fdf0bee5;0xa87336be526f3;0x7d0b1465661];[0x864357af762a5;0x2df3b06a834b0;0x3ede1abfa2a1e;0x448e5702f650d;0x11441c27252ca;0xa86d98889aa8;0x9c61d9dcc9b6d;0x3d6070e3d53e5;0x6d6a3fd0777bd;0x3d484d8b5ae];[0x1;0x6af546675a684;0x3a4f22a005b06;0x977e2e9fcfca4;0x163872b6ccb0;0xc69b2506ea72a;0xa8984776ca762;0x873daffd3ec82;0xfe01b1d268cca;0x4039fef7e5cfc;0x7a2acd5d9de];[0x1;0x22ed383f57330;0xd9060f67f43bb;0x63a83b0da59b7;0x9fc6fb739532a;0x35623888b6a0c;0xa66d484041de4;0xbb0462f084030;0x3463a657ca1f6;0xf519fb2fd3363;0x90ffe47e1d5];[0x1;0x3d7d2f752010;0x643cd679d7db8;0x13e883108e27f;0xa80db5dda564f;0xef8e0e0528d8a;0xa929bf43de586;0x3d71257dc8e1f;0xb16850387711e;0x728f24cca459c;0x6d808f59c28];[0x0;0xc48a3cc58249c;0x551e323ab6ec1;0x4dcc71a90f6af;0x614f6ee6a4fe7;0xed3130ab756d2;0x525d604e4bb86;0xbc4853fd255a9;0x55d71d67db43e;0xfc42d2f218627;0xf8ae9c05c05dd]]);
 ((V [0x1a5081544709e;0x8c858caefc654;0x7e753a6e7deb2;0x3365e099d9b07;0x48ed15fd9aaa;0xb69684164ff6;0x8b30868b61c39;0x1fc2ddbd9d363;0xea2000e9fb432;0x6de85feb933] [0x1f924fd93b00;0xb98c9323931d3;0x18ea6d907977c;0x249f5440ca28a;0x12ff56da8a28a;0x33f0801cfc117;0x495c29e69cc0c;0xef88404fc00af;0xebb01a53e0942;0x19958af4ebc]),[[0xda5cff003c7a9;0x7389b22b772df;0xe1ebe6795f1b3;0xf24c94a5e7fc9;0x1251a1b309ee4;0x628c77b38bde0;0x76510bf1a79f0;0x2e4728360ad68;0xf00fd8e37aaeb;0x6ee7d65ab76];[0x968ac64797e89;0x8cae653f6c3ce;0x3352786080c3d;0xe3244544981df;0x3fdf6dbe50b2c;0x6a63a2b58a02;0xb33315e347b4f;0xdc8eee9cbe0fd;0xfb575416afff3;0x6c1beb12b41];[0x1;0xb6da1ec4366c4;0xba02de2111b26;0x275017b54ba60;0x4758488cb83f2;0x96c3c85a7bd20;0x54659bc2cc287;0x9d9ef1d9ffc87;0x37c5fe9283ceb;0x3200333fc7e1e;0x87a33426fe5];[0x1;0x99ae6a09224de;0xbac8b4bca7914;0xe1596dde99ed2;0x6024859d2a3b0;0x717023859836f;0xaf92da2220206;0x10f9ca2f8f60a;0xf509319530afa;0x317dcd2b68b77;0x1fa384179f74];[0x1;0xeb8e744d04e01;0x48ff8730d1b3f;0x6b872acaff0b2;0xdbbb9ab92e856;0xca3b9f4c65a62;0xdb831b4c31aa;0xe187f76bd51fd;0x4963f4f202695;0x24e8975038495;0x211f57ce2348];[0x0;0xe17cd60e02789;0x961378a114d1e;0x52f3a450dd900;0xd7ac3f5abf01a;0x5892a09a9ca2f;0x818de77c312a4;0x7a609f715f2c1;0xfac36d6fafb95;0xf746438f21e8c;0xdd5fca3722729]]);
 ((V [0xb75860142d58b;0x5a3a1ec748195;0xcc5a27e1137a7;0xa4d6e61eaa008;0x65f3d91f984f8;0x409bb56fcee96;0xf773041b7199b;0xddef91a834f24;0x25f2c82dd10e6;0xeadb93c2cd] [0xca62534ca5a91;0xd37b5246f8474;0x6d71ebe277090;0x6f41a1bf1e868;0x7787485129853;0xc7531b8b0c2e1;0x36f12a1e8c716;0x2b60e0923e894;0xdfe08bd8566f7;0x7ca97f25582]),[[0x2e17886438866;0x59ec43f21acfa;0x4d5c511cc8adc;0xd3668a932e3d;0xbb8a6ff055021;0x38ffdc02cbff1;0xb9b2b82266ae1;0x37465e456ff1f;0xd838a08e1e651;0x7f776904eb5];[0x3faf829298018;0x346b08a2ff8b7;0xd4fda9f18707c;0x961e0e6851e53;0xe5374a6caa76;0x444d7961edc44;0xacdfbd9478ead;0x34e3affab59e7;0xb04666a3e3006;0x7b2af30653e];[0x1;0xfaf41634d4f44;0xb4e6f945d5ae4;0xb1f235794aa85;0x1b2b3cf06a41e;0xf0ce7bce9390f;0xc37745915b76e;0xdba8de8693a2a;0x356b2b1ad82a1;0x839b92f8a7591;0x97f67cd3733];[0x1;0x22b816020c400;0xb1f3bca754826;0xa89bad10c755b;0x73265621ffbfb;0xbc12181370583;0x813744a34b3a2;0xd32ebcbaf0381;0xab89eb94800f5;0x46c9f1694b230;0x2b00d365e44c];[0x1;0x21bd156937464;0x4feeccb6b9998;0x48316d2af231f;0x21b72476b00c3;0x17a3677f1cb8a;0x4b1452ea6d89;0x601be1039f3a;0x21dd0b9c744e0;0x2011cef7fd701;0x1560d8e5b484];[0x0;0xeda9765c9f0f4;0xfeb79869f66dc;0x172818364d64b;0xb17602c04ef4;0xdb47b2ae3d447;0x8d7875c36350d;0xb8ffafcb559c5;0x160c954ae0a2;0x8207ae89c74aa;0xfea0a066b1e2c]]);
 ((V [0xfecc970c3cafe;0xb694daa5172a;0xf7218b7edc17e;0xfd1784250c0c4;0x4375cbfc39d8c;0x388d80dadad19;0xd5223fa6ca20;0xbaec2a0cb6f66;0x82345036db027;0xc570d928f] [0x85b348de30476;0xd0244dcf68fb;0x5bd6c40b0decd;0x5d2ab01bfb452;0x28692b07096a4;0xb38f1be587fee;0x17660c00e97b7;0x2cf811064f708;0xd723ebe53e75d;0xec83fa3a0b]),[[0x78c18913122df;0x3078ebf944539;0x53d187f25735a;0xb5290180792d4;0xd86feb68d0c27;0x4f1b1a9898da2;0xf81ddd27998d5;0x2b6cc24d45bb0;0x552f593d2b764;0x473294e64a7];[0x65b763b211e0b;0x8ff1d20d67a83;0x501897c221a47;0xb4b2ad761d7b0;0x4dd1b43fe077f;0x4beeeb889cb82;0x323a1ece2c606;0x8fd4d928c56ab;0x8a5ad59f2a32d;0x18c45b5e4ad];[0x1;0x30fb0208ad769;0xbf213f1e23445;0x680a36e8dd76;0xf27e8ca697ec2;0xb0cb32e1d29d;0x29c60a42efde0;0x8a53abf71a9eb;0x1028aa2da1f4b;0xa100582eb4de6;0x2fd9ca6fa92];[0x1;0xbecbce9bf2fbe;0x16fce1c12fe7f;0xa71331388bf7d;0x26e121b5d2783;0xbc2518c4455f0;0xea7bdd7c79a2a;0xb3a3ff2414acc;0x65879389b3207;0x42bb98ff1e7c7;0x9eb94b475e];[0x1;0xdca9fb88a1bb1;0x15ba1da2ef60c;0x9f803aecec460;0x120427ff6133f;0xfebab6eeef365;0x1a43b77ea3d4;0xa88ab83b83730;0x302af3fb8e242;0xf4507c1ac4800;0x14a79576897];[0x0;0x3e66fe71186bc;0xe4981138ef9e2;0xa460a715163b3;0xa81bad1b81a81;0x9fcc9d0bf8da6;0x5f37b325ca368;0x530104b09cff3;0x203ea1fb58b38;0x839637d915cf;0x8d9d353afa0f4]]);
 ((V [0x883903d3f2c9;0x62c2cd52c2b26;0x420b5b3b7bb55;0x3d424e080e465;0xcd593347f7da6;0x7d63250d8a0f2;0x24947fb65e7b3;0x6ce89fcc73486;0x36351f717d703;0xca1885489c] [0x348a39b6b2688;0xb58f71fbac91;0x6657da7c812f4;0x7502e3d2993e2;0xbf6c8f12b9d52;0x350b2f7d42984;0xb5a72392aaa62;0x9ca9b224e0250;0x73f1d62e548a2;0x691c9af74ce]),[[0x26d178e1b8bc0;0x29c3eb1f55b31;0x3b6f730a190df;0x76a5b1abfc326;0x58ec7fbbbf602;0x6e66a6166c479;0x9bdfe258b97e1;0xe691e30bad818;0x4fbf1f9a279cf;0xa51ccf92b0];[0x3f1282b72d9a1;0x64df1687bed69;0x3bb61f37d800a;0xd14055e508d82;0x4df6c0b7a9a95;0xdd2ec155e1b4b;0x1e3731a3dd96;0xb46948dc52a50;0x4e25644ec5c7e;0x4821d9cbff6];[0x1;0x58a6e302519c4;0x4e107546a24c1;0x4c7e78629b9a7;0x3d4b1dfec4be5;0xa2b850a4d19f2;0x3ab1528314694;0x9d4756a91a733;0xc30eaabb065ae;0xa30c0c53cd847;0x9042830a3ed];[0x1;0xdf93777750500;0xc553e9754ef05;0x916c609bfc25e;0x56a361c23fb4b;0x4471c66340d18;0x5ff5548d03b38;0x95a5b0ee50f0b;0x78ddf4e600f8;0x769f6d3a46013;0x1ae68ec0e084];[0x1;0xbe63633411000;0xc43aa35c8a690;0x95983351b1042;0xf912c8a90628a;0x4032269e5de28;0xb5beefc46f98c;0x2fb0d6a210c0d;0xbb31236810e87;0x7fbe1fdb83b5d;0x1b83d7c0151];[0x0;0xff4acbe95e900;0x14fdbbb75a223;0x7832bb430e30;0x74623fbd5eda4;0x4dead0d1f2bc9;0x306dd31c31c9c;0xeb9b2ee576b07;0x52be1c142768f;0x1a52b078057e0;0x13bd2d43fefe8]]);
 ((V [0xb21079fc12ed1;0x67fdca946db5a;0x61f54061806b1;0xcb74ddca8ce62;0x6292b13e5c588;0x7780836a12111;0xa86ab1bef24aa;0xf9164ca6a17cc;0xe3ac339cfd048;0x4ae2b7c54ef] [0x5ce7ee9764627;0x6f5efb60f8811;0x7822b9ff560eb;0x3be5c6c87c54c;0x292a835476ac9;0xf58ae2249dbea;0x4ba16814eae58;0x9b66817749dd6;0x804707b08e76e;0x4bd9c6318bb]),[[0xef6e427f8bf5;0xca04fa553aa2c;0x36b21145e0bd8;0x41cc2046ff34;0x67275a8bd74d4;0xc9622837447a0;0x21691b5d93f7f;0x2246653d19b6;0xf1b2354708eb;0x2634e77c9cc];[0x890a329d322c4;0x5915be5b79a1b;0x9d86f5a3ead88;0x8e91eeb21b63c;0x9690678ccbd9c;0xf4dbeeb22a564;0xa87c49b9226a9;0x410ca6ab9b379;0x1a36453638216;0x648058717a2];[0x1;0x13d81e707de41;0xf6bfe60b95eeb;0x35e819732bcd3;0x94b9b3b57941;0x29e0fd02411d;0x14097cc67309c;0x1514d77115335;0xa12156a5b2463;0x380ed67b005f;0xc7c19b79949];[0x1;0x96e39b122e350;0x19017d92975a6;0x2bdee34de611e;0xb013c91a8b71a;0x547bd741ec35e;0xf642d29b19e60;0x1d124177f0da9;0xdec1055a763c1;0xe95c579ef3d86;0x21c42333835f];[0x1;0x6942d86f0c669;0xab6488ae79f39;0x44aaa24c2eb9d;0x405b750354c0c;0x627c41c32ff83;0x8443c352821e0;0xfa5962836fc89;0xfee73787481dd;0x3d76f4166940f;0xbce4118d101];[0x0;0xbf4fec9f0031d;0xc31c80ec13e7f;0x1cc108306ff69;0xba8a4209d852e;0xb6a4b573010aa;0xb4f0999c24fca;0xe943a7568946b;0xa64b5f95a6b6c;0x774ce9e7244ca;0x4b1382093d6e0]]);
 ((V [0xe17e755fad820;0x3923df2bb99b0;0x7f2c90043571f;0xeadcb26467fc3;0x868446f0d2f24;0x279234839598;0x99d86cbf0a029;0x58bc558eb5d57;0xe0a1b10ae04d2;0x6ce96ebd1d9] [0x957f3f99e6818;0xcc1cf5bc2dd8;0xdfe691fc3f636;0xd395b42e65e22;0x3e0c35deb6f8;0xbac701714e926;0x6593cf6b3d114;0x6c616b78d0db0;0x1ddeb543a81a4;0x132dc9178e4]),[[0xdee80e4fccc52;0x93756358bf2c7;0xe4d9df5b6148d;0x8a02117555fe2;0x91b22ea2b8a21;0x97327e38a31b5;0x92f0c2fa4b406;0x977047dd8c4bf;0x5d8db11745e2f;0x4c3019ebaad];[0x6f4f04830f2aa;0x3b6d5a1b1cd0;0x6ebce9a885299;0x7e72ff114edf3;0xbc13d3eef0cb4;0x53c6ac287aa2e;0x468a53cdca7cb;0x3c1cb9657ac1e;0xff68bd417fa89;0x22ede50e645];[0x1;0xee6ac2209ee11;0x2774e4bf3a6a0;0x938d3cf592a63;0x682a49ba59b8e;0x6adc697dec3c9;0xd4345ea1cedae;0x26c15885ab235;0x2b0d7dcefd53f;0x3a96224a09b9b;0x1a0c140eacd];[0x1;0x42162b954833c;0xdeb98d9fabd36;0xc34ac3d1d7f64;0x9dd3078c20cf0;0x6f23c3ee35e8;0x4ff916872450d;0x65477150dc650;0xe2d5d035ab3e1;0x5773f51ddd055;0x7747c0ee7fa];[0x1;0x660b978080c04;0x1fee8f35bf1a6;0xd26c5acf87f40;0x95aeb75d641e5;0x399a9619e2742;0xd8dc7cf6fc78e;0x2cdb36be7eb9d;0xd35e82f4ad65c;0x72cba89a4bf28;0x1d8048bb4265];[0x0;0xffdb773b55fc0;0x145bf11d0cf44;0x94b6d4e2b0bdf;0x486dd77a45c5f;0x6bc9063685c2d;0xe0c454b1ae3b6;0xdb1c8b78c212c;0xdf35c4e709b0;0xd5618bb927412;0x97da140ca36d7]]);
 ((V [0x778f2b179e550;0xcb192ce3f60e6;0xb9802a973efca;0x6918abb3a82f5;0x9ae71e2360434;0xdbb0bb7134eb4;0xe975a4367bc19;0x8dde13c7b89b0;0x857d84949f5b0;0xffd407ab27] [0x83aad45b8ec79;0xf65526e85651d;0x9b29d72aeda39;0x1853a63ad90e6;0x8d95e5309053;0x561ac4a07d3f3;0xbbad886278a39;0x81c847c3f5868;0xd666c4605defc;0x537b74cef0f]),[[0x1d1f6db4ae63f;0xc607418df49de;0xca36c990985da;0x472d8d6581c82;0x745b5b88d2f06;0x3560f8e7b8941;0xaa57b271992ff;0x2b027edfa9894;0xcfe63c5712be3;0x1aa1acfea2a];[0x3bee2051c55e5;0xc80c7a0aa2158;0x64bff8db2787;0x19bfe6d52c947;0xf02a907b35dc8;0xb99fffdd94d7f;0x11216fdc4c797;0xf3f49763130ac;0x99bcf80218f27;0x67542932d16];[0x1;0xb74df911bc400;0x670a361339e4e;0xa9e2ce873cbc2;0x557d8a1e279aa;0xa2e40fcf5cb39;0x15deaaf4081f;0x9a743cbe4c726;0xd30442eca49d9;0xa90e36aa60055;0x71fcbdd0f88];[0x1;0x9672f788856d0;0xd14a373a4deb7;0xcddd7cdc71ac9;0xf11834904face;0xd4d80cb688c21;0xa9a12a24af8e0;0xf6b315eb4b834;0x5350b6fba8b81;0x7e6e9dd481203;0x263fdea7a1c8];[0x1;0x5f0c43368ecf1;0x39c7a4e085261;0x8ae4d01381bd2;0x24c4fd1428d81;0xbe6e0b9cf3471;0xfcf7d6ac8273f;0x38da1c101bf93;0xdd263a3420f70;0x305d5011cc7d1;0x1ce15c16c4ef];[0x0;0x5633c216f0e0f;0xeea5db056fd92;0x60f3320d61ab0;0x70ecc7d4fd55f;0xbe4ec4ebff085;0xb47a255b5efa9;0xd2c22291be26b;0x6469a9fa29c6c;0x7373dd4c7b428;0x34a3fe8684e46]]);
 ((V [0xeadde0923aef4;0x954ccab7d6797;0xc715bb0ce111c;0x811f868d95405;0x80d536a84b7e7;0xaece7c69267f4;0x22b6219c3d49e;0xf9b1fc7adc21f;0x8dac826bae97a;0x34f7dc2715b] [0xeedf5bde3a208;0x78109fbd2341d;0xced0180cfb20d;0xefee3efd640ba;0xe97faa34b5ff8;0xe1021d7c05a23;0xb299b64fd3ddf;0xc3a167cb127f5;0x49847e8696e2d;0x77b34483c2f]),[[0x4d754fd98acdd;0x6dd2ec4120f0a;0xe3ee891839635;0xdaa4ed84092e1;0xa979db4037793;0x2d991a851a0b8;0x4df8c5adebe53;0xe83e7c16311d3;0x3e9dce4b44924;0x3b6922e2051];[0x49f0d93018896;0xd853d255e83f2;0xd8a5b71a0edd8;0x3208f664bec05;0x6d47ccec0266a;0xbee0910ad9076;0x53b38f63e33f6;0x4e1c27586553e;0xe92c842b45fe1;0x3c71bcf4054];[0x1;0x13448e87a2900;0xb90072a8016d6;0x2902b6906d242;0xd2da657996d9c;0x8a98c8d47fc0c;0x9758197124a91;0xda79d2f1c0ce7;0xd4b1faa38394d;0x445290b22cec1;0x76e429ba434];[0x1;0x48cf62c2c714a;0x59e2d832fb065;0x4e162aca7ccb6;0xc966bfbc5bcf2;0x1e995de8a7a22;0xd99a48387cfce;0xd09e24d59cd2d;0x4fd2fcb171724;0x86ceba89581d6;0x11d2b79fd4d8];[0x1;0xab46607f417b9;0x7e5bd4567e789;0x970ca5e147316;0xe6cd899a7275;0x6994da3de174e;0xf9e88b8ef50d8;0x274a3f182f8ea;0x65fe18668aabc;0x2c2e19e9d7f9c;0x8e5177b5545];[0x0;0x633ef6503de31;0x729df5e0a18c9;0x1128debe7a962;0xac20186eb3bc9;0x59d27f1dee8e9;0x36d4c8a216fae;0x353ca5c5d247a;0x2f652022c7fc4;0xe4d63bf3e42c6;0x75662790ddbe8]]);
 ((V [0x3ec4555aa9b46;0xf04f726575a4;0x58da40f685418;0x906943e6ded64;0xc1869beb32075;0x7d031b3637557;0x73bac89fa4227;0xf37a5ad4bf541;0xa4ff870ea971d;0x58fe28263d3] [0x92fc835ea4da0;0xc8487d4104d23;0xfbdfd0c7c1a76;0xa655f3b0a85eb;0x102644b148f0e;0xbeefd4dfed47c;0x8a85126ce9034;0x11c6c9122e04e;0x6583f89674ff5;0x239e8618374]),[[0x146f18b457158;0xdadd96e4df0d9;0x66aecbb0e0c30;0x915694a3ac6f0;0xfd8a7944aa918;0xd72e59e39b144;0xd0c7adca29d69;0xe4d94a74d6833;0x70bbb3e3b44f;0x41cd125634];[0xfb3e3b52cb132;0x617d426c4a737;0x21a7a5203a92f;0x75c149a73f988;0xcacc9ff8a63f9;0x8c348b9e0076e;0x1cba530f3ac5f;0xd9821d53b1ef5;0x4fafdd71a02b9;0x328dad15ce6];[0x1;0x7865b2f5de790;0xb98ae64e99a62;0x2753c27aa8ed4;0x5e4e885c7c666;0xbe5328041c39f;0x80c3b78e3f7d8;0x74c98e49ff143;0x72f34673cfe47;0x5883201e1a488;0x4f301756b9a];[0x1;0x15f99ce535d80;0x3690fa60fe3ce;0xa973018f4957c;0x9f8c7dc8d710f;0x2216f039e267a;0x6e0bb5d620057;0x6b6ec022a8b80;0x8d9cd46022e2;0x5947f587193c7;0x127a0f4a1478];[0x1;0x4e6991e4f4a40;0x1a8c8714b4e95;0x3b4b6e5e1d4cd;0xbea8114953f3e;0x6a5d774246cec;0xa518eee014083;0xe12b1cf8dcd61;0xdac021a82e513;0xc74ca5107f278;0x185b9ed59a50];[0x0;0x5c4f2f35ff488;0x4ca6249ce8b0d;0x7f8cadfb4945a;0xfe4922338151a;0xdcd1718e7db33;0x62359f289fc6a;0x7005c9a43635c;0xafc20191edeb7;0x7bf2ef78f57fd;0x705f3381688c]]);
 ((V [0xa6ce298a718e0;0xa386879f913cd;0x80ab98a4fc08b;0xdd632e82760bb;0xff0bd914c6478;0x24193e2b40243;0xae222b234832d;0x3b84c2e89f411;0x90812158653c4;0x685e35e5485] [0x4fc6f505738f4;0x3344c9ee68cf6;0xd789d0e9964d8;0x8c041bb9011a6;0x54bc7151a40bf;0x6be5f405c4aed;0xab4d8eeca12ff;0xf383b74e8a512;0xa8f12a0e6d457;0x31fe7aca658]),[[0x8bfcffcbb49f1;0x32f1ce4cad544;0x2142c14027d6a;0x27431a9538eb9;0xfb5bed4d60cfe;0x9d200d231faf3;0xfb486f5bdc7a8;0x507ff2592d9dc;0x7f9ba084a5957;0x321a234f104];[0xb886321e7620c;0x81332087fb647;0x6ab5a119d4b32;0x190f0aa6f0902;0xa56fca1a8191e;0xfabcab961ad0a;0xdf5ed3fc1a599;0x9f528439b3f3;0x87e5ef213febf;0x5e3d0a5d1dc];[0x1;0xd68ee9a599ae4;0x6c7115656a976;0xfc7685405adc6;0xcb04a5e33eb3b;0x16affb0bc1c3a;0x26876b72d4fd1;0x7e23490c99ffe;0x5cad9dc27449;0x5dda9fd00d9ce;0x7e9aa4de430];[0x1;0x7f10c7d97d340;0x519106c9d47c;0x8a89944b8f321;0x506359750af2c;0x56a207508f2d8;0xacdb481108779;0x5f7473bc8a916;0xf4bfbe737e247;0xb1836607fbb28;0x2198bd95e9b9];[0x1;0x31852418df851;0x84a04fa817bfa;0x699e5f70f6bbe;0xd247d19630f0c;0x8c9ae7b59f4da;0x2205a6b51bc64;0x97595f053ede1;0x6a49a094784ab;0x709f1ad2d6aed;0x221189b775f0];[0x0;0x86956b7920b4b;0x47c2dbdee4b22;0x2c087ff3a4f8b;0x4f5561d72b082;0xa6e2944af0659;0x6a7f3aa6ebc4d;0x7b50744ce4228;0x6af6ef8edee4e;0x3fd0ce6e548ca;0x63b522168b387]]);
 ((V [0x97d9e4fa03b1;0xe4199a5d4e516;0xf7e563d3f402c;0x88ad59a0cbe96;0xc38755c511fbd;0x78dc35580c608;0xd8b59431e1c6d;0x22a0e616d103b;0x635fd97f2a768;0x5f2a83bb0d9] [0xc922fe5570892;0xafdb55f73c567;0x5e45c08bc8f45;0x1e4a02b78d255;0x1dce3499c9de0;0x52ce214fb66e6;0xf14f50dfa2e03;0xc4f8401a71e54;0x108268e5f7581;0x1764bdbeef2]),[[0xc89b556270ba8;0x450809d475ae1;0xbe14ea27816bd;0x8d570e4da80a2;0x369b155846a64;0x272479f80a85b;0x42ac87f8f2a9c;0x62f9063e771a5;0xbd7934a4ee669;0x58d7c33cfb5];[0x75e75025b3e3d;0x7bded33aefe7e;0x31783c1063a11;0xf53fd819560f3;0x24287837627b8;0xfd7d422e751f8;0x4027adc56eb03;0x64340a17b0151;0xfcbdef54e2edb;0x5fa80f1795d];[0x1;0xe98bcdea48400;0x7e4754cdea64e;0x8a502573c73e2;0x41b93b3798616;0xf8ea79e753889;0x529d71f8e0260;0x180306c3ad453;0xb975ec0138d9;0xb2d3deaee36c3;0x6a36c14356b];[0x1;0x1518170789440;0x906f4ad0fc1c6;0xcb090c94ae9bf;0xc17d116a0c754;0x66e6befc499e6;0xb10c9dcd48fb6;0xa7f1fc8a9cd1e;0x32f3c70c18997;0x59217d11ea9c8;0x1f889e64fb6a];[0x1;0xdb4ecbe6f5a40;0x8f51843b00e76;0x3f6d98bfa40eb;0x553007cdc9d2;0x505ff22eb8256;0x1bbb63bc2ee2f;0xcd3be406d9c7a;0x9948475ae48b5;0x9f067647b2c28;0x22223c6e4584];[0x0;0x759746dbc6950;0xd272ed41c017c;0x15d2d4bfd880c;0x531320adbde14;0xe2393fc94b0aa;0xb6b700a588866;0xbd78c1f068cfb;0x4273a140039d5;0x2464fbae633aa;0xb17bfad97c78c]]);
 ((V [0x1d9f7ee1d0f90;0x3bde7eea29b5;0x3ca70526bbc85;0xd8c8efde910d1;0x4cef69954f23;0x9d4bda83e3614;0xddf9f95c73c67;0x616f1955ec1c6;0x2b259bfdb86c9;0xa47483fb7] [0xbc53f1f0e633f;0xc4ff47bce0d61;0xcc2fcbe40f450;0x668519d5bd19b;0x78aad533edad1;0x4e19cdfed84f5;0xbfde6af06aa0e;0xa54e186152a00;0xf3553f4158e9;0x60e21bc058d]),[[0x3af50248a3611;0x848221a8e9d1f;0x493d4a570148;0x908869c498b04;0xc5f4037110942;0x66c7f1ce2ec81;0xe1f96e6278269;0x945bdb52887ac;0xc02733bde61f8;0x45145f6e625];[0xfff95e2310c15;0x7c88e574f30b3;0x8ec9929877d3;0x183d2a383b941;0x8c0b23a8897f5;0x3d66734f9491e;0x5ca6e8baf1f92;0xb7f359b598fb5;0xa4f7b2d4aee52;0x2a191967336];[0x1;0x528b2037acbd1;0xbbff4200ff560;0x75eceb1a89a6c;0x3e32bad3e1657;0xffbc3595cd307;0x76ff0f0696a3c;0xa1da94e62bd12;0x347f7629fa4ac;0x6cb1553c3edae;0xd710925c45];[0x1;0x2fcf311589b24;0xc164fec603b5f;0x2794d53be074b;0xdac2cd5a74fcb;0x21be5180005ab;0x43f440972fa77;0x501cbb621c18c;0x105282acd7959;0x2166483df891e;0xe356897c2c4];[0x1;0x10fb08c6aac91;0xfb14230f21144;0x8e2b20bdbd4d5;0x115480756e391;0xda120d704c6a9;0x81d3a96749f7b;0xd04e912b8f730;0xb6bc6f1824bf0;0xe1412f196cb43;0x158aafdd3118];[0x0;0xf246616ed0570;0x149385c9ff11;0x988ab35ef525b;0x1a2a44116cb6b;0xfa90649ae5c2b;0x99dd1da52f878;0x863becb17cc9b;0xda6e6f271dd06;0x175107e0c729d;0x89b048d8d39e0]]);
 ((V [0xd58380a612345;0x4801a6aeb9349;0xca74707899447;0x26ec13b0f80b3;0xde2bea7fe3fc6;0xd59f1f5b5ec90;0x8ab7346ba806c;0xd157733017526;0xab96dfad5272b;0x5405e9acacc] [0x5e20bde1d2f5b;0x4889d81f4b74a;0x191f56be277f2;0xd1ae2abcba516;0xe57ab2c0bd5b;0x5660e7074b23e;0x1e7dbc4488b4d;0xec14f5de3736d;0x4b2b6ab3d811c;0x73e3e7f1a3]),[[0x45bb09e608ec4;0xd34739c39f27a;0xed9ef670ab3cc;0x2d5d9def8d887;0xf5dde361f887a;0x3168a494b8935;0x5057daa9c1ccf;0xc82c51ec05c3e;0x7d507441a4f09;0x8996d69495];[0xa8bc655ac6c36;0x49cc4a2e86cc2;0x2bbab282fb4d3;0x86982dee17b4b;0x35f12b50920b4;0x927668139330b;0x986ed9cc3498c;0x794cb2ed9067a;0xe26ee268d1d0b;0x6b48c0f73ee];[0x1;0xfb5ba8e58a100;0xfef9186b11cfe;0x68068a42f0f02;0xfe76ca476aaa7;0x3121aa494051a;0x8caf15b6afd54;0x7561f08417642;0x501a442f0abf4;0x8381cc722a1dc;0xd690aea3819];[0x1;0x3ff2971a9c8f8;0xcfd7dab183a8d;0x11a327dada12c;0x9968549e08a91;0x99914b5e9ec97;0x8542bfc4013fe;0xc5a5e3086d4f7;0x4f9f7e937d90f;0x67b4e4f689021;0x276b000289d6];[0x1;0x27428bf0bd10;0x21a4cab577a07;0x39c145a4b3b50;0xd6c8f87ea5999;0x3372b02d6443f;0xb916ebbe8bacf;0xc81723d7e209a;0x30241d92e21c0;0xc4424b246058d;0xaa09bfd430f];[0x0;0x7d00260a32818;0x64b4ee24da54b;0xb145ff51525e3;0x98967394f4446;0x7fc796aab01e1;0x3047bfa2221a6;0x6ef4a0d08d446;0xb60495cfbf574;0xf8d93ba2bc699;0x1065998266e9b]]);
 ((V [0xc94d4d5c8e0b2;0xfd0392b6729f5;0x3a69d85384a9f;0x5512a306caf2;0xb8c41201c28f;0xf16e4f552d063;0x5b2b5bc769b24;0xb5b38cc1d9542;0xa663401264cee;0x5399394961d] [0xc4ffee3a3efec;0x6330b941a1104;0xcfa178c7cc2fb;0xc36164563b08f;0x859e396b3c5f3;0xf5dcf5625555d;0x548d6c230b782;0x6af2bf005260b;0xa380b8470ad08;0x52698bdbed0]),[[0x825ad47910a0e;0x834213432f4d2;0xcb78fe6d47190;0x1b5b5f98a3743;0x3400e9f09360d;0x3e40a2f8fdfd3;0x653d826d5351e;0x43a131919aa08;0x1923539ec73a7;0x66cbdd6a5bb];[0x1c93a20b9696b;0x1397fe3c19d1b;0xce9fa5d8aabd1;0x4834235421d63;0x2c3406a929ee5;0xae8a031917190;0xc1c9f6115f9f;0x126a3e42260d9;0x9abb282797c4b;0x74d7726ae59];[0x1;0xf99230d856c89;0xd972598921339;0x71925c0dd003f;0x9bf29f26b24f4;0xeb6ee9338bd0;0x1599dfd3be537;0xa3df8c375b341;0x9153bd028aa95;0x4362ad9facc59;0xb28721dd3c5];[0x1;0x21c39b93518b4;0xd6b093468f25f;0x42ee2fe683f3c;0x993c5aa75ab7;0x638a9bfb8df1e;0x1eee4746c6b1a;0xc51c5e10ecc9a;0x786154a3fc53f;0x7e7a61cada7e0;0x2b16a68699b6];[0x1;0xbf38685673284;0xbce911a7f1088;0xaa318168f544b;0x23fb6b46d65e0;0x3b5223ae4632;0x5a76e8620aeff;0xed969cae41149;0x26e270c2fcead;0x3cde0bd33dd4;0x1a4bbebb2286];[0x0;0x6d0876ca595a4;0x63b446173aa47;0x6c95be412e5a0;0x3a11c1d9f2609;0x4ccc5a3da6e5d;0x4018f36ede44e;0x8f14cb9f7e7a6;0x678fb6e7e3791;0x3e0668a0fb19e;0xcd4b8e6716906]]);
 ((V [0x361251e56fedf;0x8c59fa95b7844;0x558908a14206e;0xc4b3f427ff68e;0x56da5ce1e5025;0xe3ce28b9880d;0xeba8ba40cb7d8;0x205c1fb0e78f8;0xa271178b0b70c;0x66d3ac47356] [0x5bb231424af88;0x54f73bf79626e;0x59a4a9ae86e12;0xde3971390936;0xbb0b394213993;0x76af98d9cded1;0x5f6d6d1732a0f;0x5396ec380c670;0x70e7c639ba31e;0x10ed07c88d0]),[[0x356b6ae7d91fd;0x951f00b832774;0x268399531a4d7;0x3bb52ca349c94;0xb28550e499bd4;0x22e82d6f34602;0xce2a8927eb47d;0x30a93ae9cf79f;0x30333f4433c35;0x5e9ee7986d3];[0x70382e99a0a21;0xc93ce09f82d56;0xa1cc1767386bf;0xf7b2912c81bc7;0x85203f4f24714;0xabc924c238bfe;0xf369764ec7d92;0xfe140fabb8035;0xa815d45e3735b;0x667eddab29b];[0x1;0x74338dd446584;0xc616a4ed22382;0xd26eda6e55070;0x531f0e75f2eac;0x8665e9ab0e039;0x9cc30c9dd5a3;0x893d399c988c6;0xcd279b6e8e5c3;0xc52da5b051f7f;0x96644da01b7];[0x1;0x4b48b94243cf8;0xd824606b9024b;0xd1da382be2d45;0xce4990ce76d56;0x1a913fd4d186b;0x1bf09cc09475a;0x5259660d7c18;0x35d1a425a6f12;0xf6c52a5a88b45;0x1ed218dcd732];[0x1;0x3e7c927a300f9;0xea5b9a3bdffeb;0x2baad288f7e1c;0xed50fea0b0eb0;0x75c19f3c812f0;0xd3968da9a7d09;0xec9ddc6d7e88e;0x7e411b79c8228;0x484a6e914c498;0x1d61a1446ae8];[0x0;0x9556839b9b966;0x140f652928bf;0x7867aa483ec72;0xeab87fcc01070;0xef714a2df5556;0x6e00c48855b32;0x9761e833c567a;0x2622edd348f5a;0x2160e28bd1e54;0xbcc78a25c7251]]);
 ((V [0x8dda162c9aa0c;0x5cb6aa36c87ce;0x59ddc9811bff7;0x9443487b2e26d;0x4d413a2c44442;0x9ce30cf0a3103;0x109b5bd1629ca;0xfe10fcaf826bd;0x75a642c612048;0x621b3a765c1] [0x8ea425cb22430;0x31ba6c2ea2974;0x44de4cdf82030;0xfb94a3ea6b21;0xa12cd47bb12ab;0x8c3f8d5b728f6;0x87f425a6b6eb0;0xc5463740c2979;0x32160fe0a606f;0x6cd3b79bbc1]),[[0x305e2e7e7b060;0x836c2e72b83dc;0x30343577eee71;0x5a5474a9f87d6;0x66002378b846b;0x47e27bf6bb934;0xc91356bf1c17b;0xe81f6e57c580b;0x1d78ffab08e6c;0x32745fe90e0];[0xf3808712d2393;0x50f617b7d1e5f;0x939b388b3a902;0x8cde16b6cc8ec;0x43a90a73d05e9;0x15ce2ebc1af55;0xac77db3c75e1a;0xa38b65975d707;0x64d797065887b;0x77501f458f];[0x0;0xccda7ce691c4f;0xf2ef5128dc67f;0xb734a7f9c7adc;0x7bfb23453d4e3;0x106fffd2f2420;0xe65ceedb1bda1;0xaba7156fb1ec0;0x914143aa93f00;0x834746635057f;0x43b0b4b3add];[0x1;0x2649a411d4600;0x1d2f0f01830d2;0x39df23a9c170e;0x1a4705a84d670;0xc646d813eef41;0xec56d17fabca3;0xd4bb5337fdee7;0xf0936c49360e;0x652daf3de3b9b;0x1f6616a9d1e];[0x1;0x6acb9af37e400;0x5fe3dd7ba0fe3;0xa4cacc366cd32;0x518ff1001c455;0x43d47ccafc243;0xdd43e267c7a7b;0x7fd625766b907;0x3c8829e31f121;0xee42f4e7de602;0x24ba1d14d5c9];[0x0;0xa95db80edd340;0xed60885e52f15;0x26278eb1efe4e;0x2655a7d75bf0f;0x5b85d0d44b3a1;0x320cf5d5ba623;0xd418ffda25aef;0x40564e360d212;0x25015ade048cb;0x64218f0a62b66]]);
 ((V [0x179c262ab7ff7;0xa1a9d864ba3a6;0xac0f67157e2c4;0x2234245dee854;0x330d65f1ae738;0x9c2b4379498d0;0xf62dca307a69f;0x31b18c03c4894;0xc03e89921488c;0x57fe8c6527a] [0x1889cc6109ecc;0x80080ebd1bb2a;0x6a50b22d5e4b5;0x352a451e457e3;0xf798335ed0725;0xf81c99219e9e1;0x77afb2dbf374d;0x2decf975fc4ab;0xd14b3699dac72;0x352ba04a522]),[[0x93995704e5161;0xc2c7c49805a66;0x5416ea37065cf;0x62afc5ea2927a;0x86927de85da37;0xb947e2ed91c1d;0x4db713098d3ae;0x5d376d70f6842;0x6c99acb10e68b;0x10b62d432c5];[0xfa1dc4518760c;0xbf80f2948fad;0xfd0b1d2299a6e;0xb552a70ce4644;0x52f61d1c31198;0xf6b5c94823548;0x8d8e79e2d8162;0x3e2a9e114cc65;0x4b987b54cd44c;0x5c6656edadd];[0x1;0x6c734b4afbf90;0x5887c20b08871;0x7a5ee51e21b75;0xd510ec44248df;0x2007aace43e05;0xc0539b80a3622;0x1c376bf09b294;0x84899f18e77bc;0x325e4ad272f12;0x6d9af68b5a0];[0x1;0xce8100b779660;0x5e56aa2507538;0xc7a90d7294cb6;0x8972a7f20c2a6;0xee2079b38db9;0xf0aa8c297393c;0xb6b2010ac6259;0x25a8201650c30;0x5e19ecf03be9c;0x20dfb54a1eaf];[0x1;0x359c2badc31;0xe9e241edab164;0xb1ad8554467ec;0x6b02b8fb02da0;0xb3bc775c16504;0x896b485c3407d;0x7057f86b9920f;0xdf176430faae6;0x849c060d99642;0x2363b740a2d9];[0x0;0xbf54d5cbc5c3c;0x6eb4fd0e128f3;0xd0aef9a3eeee;0xb79130ddd0a40;0xba4ba3c436bf8;0x87635e0d20196;0x23944103b2058;0x9016ac3f326fb;0x366edd5b9546b;0x203a63fdecc82]]);
 ((V [0x4e83facde070c;0x4aa6fe160431a;0x2b4fc2ff44d57;0x7cb2c499d972a;0x2e2b6b06a307e;0xbd5bf13f9c2a8;0x51b7cb1935e6a;0x5b90f20029187;0xf5dd59d4c5583;0x3d2a1206ab1] [0xce7c15cb4be19;0x8fcc46e76dbab;0x29f57a3d35a45;0x47f04b6602745;0x3e2ae7a51405b;0xe20e4096eee41;0x4e47e741a75de;0x462464c460e86;0xfb6025613755e;0x6edda3e3a1b]),[[0x9a10e77dd73b1;0x97afe9d3fb713;0x5b4de61747031;0xe28f5214a8e47;0xb5617f78d0819;0xb361723e76dbc;0x2955f61caddc0;0xe6a9ab6360fcc;0xe57a2fc3af039;0x792864e92c2];[0xcce5f409a6615;0x40480cd134e63;0x5a5a6bee67fe4;0xac9fa44137836;0xaa22df42ea101;0xc678731b80a1;0xef024a2cb1509;0x85c7f32b747f8;0x2f23aa6deb73b;0x21fc6c49b0c];[0x1;0x2c834875a14c1;0xdffdb1c2583a5;0xb394c6e754fa;0x9599d9bb1b849;0xd5c76781e2804;0x3ac56d871de5d;0xa0a8a5eca162f;0xd5d9c9e9861a5;0x505bcaa25c029;0x77ad784142];[0x1;0xfaef14a9d2098;0x8d4fe8d4f7b82;0xf8447a34ae5b;0xc270408192b3e;0x9d0acefd8f58f;0x7668964aadf1d;0x76e77cb90bb45;0x7eb4f7e33c6d7;0x4e8b92526ebe5;0x67427f9390c];[0x1;0x275d0c2ddabd1;0xef61d96184cbc;0x80870c0c8ac83;0x70bb984fdbe1e;0x7207923f0247;0x504e61b02f7d6;0x7a0e5e23935a5;0x3d23e8da88630;0xd92db637b15b2;0x1679fea19bc1];[0x0;0x1ae491d264966;0xf9880efb7376;0x67b3fb6e5d331;0xd70e0f0b079c5;0x955727d04e83e;0x558771b7dc1c7;0xda56bdeae0c7f;0xd741e4bf18712;0xb3b396e372368;0xf19b4502200fe]]);
 ((V [0xe9ea4306d0a82;0xaf6567775cbe6;0x169a5f30c67b5;0xd8789929b9057;0xaede5e4fb8d09;0x4060623624103;0x8061aab7afa7;0x471d72b5de2d6;0xc6d1a604c1a11;0x69186788be3] [0x4a7df0b240fc6;0x4a3b34454910c;0x14b90282f6b97;0x7bf347079645;0x6d514795a2da4;0x537deed8cc82e;0x57c1798c05a4a;0x7711327fdc75b;0x96a841518c484;0x34e40085e74]),[[0xd8369af221cbc;0x3860c9b6be078;0xd8f1eafd082f8;0x2adebeb92796a;0xa5b55ee752051;0xf5e954cc94154;0xac1d976fb6ff1;0x32ef055c322ae;0x241af866d55f6;0x2bef77dbb47];[0xa83dd46a7ec35;0x449ae42d1fa8;0x435f2c7c65750;0xde0582532e6c;0x37d95e780a828;0x9c5849ed0ac60;0xff46598c6e9b4;0x2f40da3e357af;0x80a7fcdf84c9c;0x5372fd52076];[0x1;0x7ff43061df790;0xb50bd0e6156fa;0xccb303a3d7b22;0x4220a11923624;0xc1fa67ca88ffd;0xc825e803016e9;0x255fd6793fea4;0x5d488e1e86247;0xc0280abb9e6f4;0x89abd3a1dcc];[0x1;0x736f66ebf538;0x89ef32182b7bd;0xec796474799d;0xb27bf74f3c977;0x8946771ff417f;0xcb45c92aa2dc3;0x25d44609f5734;0x68095be1e3595;0x60f9651140a78;0x1a896327e81f];[0x1;0xc00d8adb82110;0x10e5ba6e83478;0x7ecb015e59a94;0x250f80fe716cc;0x2e3723dbe6e5b;0x513e5022b7c18;0x78958b790a9d5;0x7877ca50f9a14;0x7b61b148132d3;0x1b7c472a2830];[0x0;0x4d5aeaafcd8e4;0x9aa2dc86352c9;0x7ff31f1152e08;0x9eb660e87fcc7;0xca3737dc92c27;0xd5f56204a8d56;0xcb1776adc47fa;0x8e11a0ef7f158;0x452ebdecedb2f;0x56b447a591306]]);
 ((V [0x252b1970a84b5;0x9676472413376;0x29db53aa86eb;0xbe845fe932878;0xec5f7839636bd;0x2b3c6a6d3cab1;0x86e3ec98e78e3;0xef0b167b11e5d;0x4e51c6dd886e6;0x17d9216555c] [0x779f37d8f6063;0x679c6973eb2b4;0x623a76811e340;0x409ce80092ad1;0xcd71ef30bebaf;0xc1baeedf56b51;0xc4b449641d2cb;0x1afb4dbfdc81f;0x5c6ffa30a9c67;0x5d921dd6475]),[[0x867917eac6eb1;0x824c159ca81ab;0xada7ffb5943f8;0x22a1c98afff75;0x63065368debc9;0x6a5c84250a30c;0x211d5c1ed2b26;0xe0f9c6640ceaf;0x60eab52629399;0x55a99ed8243];[0x161754b89dbc5;0x59984afc8d348;0x6e4069053d49b;0x6ced0e00fdcb2;0x71d9f2249f83a;0x180c59dcf8558;0x5810f2ba6d7fb;0x4eeb8c997468f;0x1923691b61538;0x24f9edaddc7];[0x0;0x52e22798ab03c;0xa1a2eff46511b;0xefc7de217dc4;0x7d71482df1d64;0xded9b821f125;0xbc73196ced317;0xd013fb0154090;0x90963b61be28b;0xdf979a72e9851;0xc563327c63];[0x1;0x55b268dd7ad0c;0x3113d5cdea176;0x4abebc120e469;0x2e71475974f06;0x38dc64f11bb48;0x213d8d5e4e19e;0x3902bb78d1207;0x3883180a80f22;0xbea3daa41990d;0x9710940a712];[0x1;0x46a0eba6f61d1;0xdfba34f344847;0xad32699cef02;0x914662376b3e7;0x29ddaae9e065d;0x692e2e70aa8ea;0x7ac3e2b41c560;0xafc0c879f14d8;0x50e08622a090e;0x19abfb9305c8];[0x0;0x45482dc918844;0x9e503ee2f918;0x673f035e16a73;0xb72a6030ff4c3;0x66fa202024b66;0x1cda332d4d222;0x2acc1274b9d57;0x10693643d0bf9;0xa7cd7e3f1341f;0xaaba5ac1599d8]])]
 [[0x3a0c0e9eca899;0x984f3a239b646;0xd4250477cf16c;0x29b71c22b0faf;0x5ff8dee57fcfb;0x1ae27adaac350;0xb457858639e76;0x73a5218ceef89;0x51277df4e0871;0x92f23de764];[0xd3f7fa499227d;0x9bad2b1bcce9;0x776a6c51f88e2;0xe8edf8f9d9c76;0x6005421918019;0xfe3ee10c12cfe;0x34664047be35e;0x4226249896fc5;0x3bd1acc9b887f;0x1485f5df2db];[0x1;0xbf4c3676a3de9;0xae4f65caeb797;0xe528b6cc606d6;0x756c72be47ec4;0x9e9805e3bef16;0xc0a9276ca73b2;0x9cadab02cbc3b;0x1d121a2ebcc21;0x757d37303e5b0;0x249a736aac4];[0x1;0x232574bac01f6;0xaed8c2f167eb1;0x59f832a179995;0x7db28e3fdf343;0x129fe1e15d5fa;0x6bb7ca9079c6;0xef872315c18f4;0x12dc46264a273;0xee9d0c183e109;0x6db64b49deb];[0x1;0xc83ef717c3de1;0xbbc8ce31e6b4;0x161b318837c48;0xf68e183813408;0x2c046d690fff8;0xf9dbd65ce14fd;0x1595ac457243d;0x674225ee1093b;0x91ea059937c0f;0xe4fcc33ad1b];[0x0;0x4b91a40a84e1b;0x46676653a1c55;0x10603b57ddbe2;0x5101f7ddc6918;0x4503d0ad0b189;0x27138c3c67cce;0x507cfb2a9b07e;0x5798966d5e5a;0x84516359f83c6;0x1135c8042efd4]].
Definition wit_512B_64_6 : colwit ipt wit := mk_colwit (V [0x2fa78d714f2a2;0x50d4685118286;0xd9ccde77ca531;0xbf56798349529;0x3ccd278f82899;0x6ed86df19363a;0xfb25b2b940a8f;0x511d07ad25a36;0xd525c556a621b;0x60034431f2f] [0xaece41b9c2d84;0x6d60de038202d;0xaf1e8e1731c82;0xee75a6d30e645;0x1a4dfca6def91;0xfb298d98e30f6;0x24d53e9fd894c;0xf3c7e22fc9ade;0x8ddcaf87a1b3f;0x1c9684e0d71])
 [[0xc8ee1b23a82eb;0xaadd1c3be290c;0xf08f0405cf81e;0x51cd86a1bdb20;0x2347a80dd96bc;0x462939c71a873;0xa3bfb50e47dd7;0xbdedcd089546d;0x57b8a31492db4;0x523daf7045c];[0x3739e979c0dae;0xe98657f359f97;0x2421d69b0f71a;0xddcb051dc73d5;0xf80625e67a24a;0xdb6d3d54326e8;0x70cb5ac9efb02;0x858cd3a029afb;0x3e1aa94c1d650;0x51609c11aa0];[0x1;0x4cb0ecd97f961;0xda02fb1dbb3f0;0x767f5a2b1ebbe;0x1c8ab818b4d68;0x4994de074607b;0x752ee5c01075e;0x3d36e6b99e678;0xe694d8db7a19a;0xc6cb359b2bd82;0x7f8d323ffef];[0x1;0x8b8e98f9a6b6e;0xcbed79180363a;0xa15d6d0cc4a76;0xd404b4673f464;0xd7c45eaa996e3;0x18e7c9cbcd55c;0x4ee86ec2ace8b;0x6d6ebd4e8536;0x6b7c73b72aa64;0x19e187c74421];[0x1;0xecefc80467da9;0xe71e0b7dac9b2;0x40a470d675a8e;0x2eff1cf96bef;0x2c28de616180c;0x8fd06f079d002;0x451aba3a9b56f;0x76fb7afc04f08;0x44a969fbcc5d1;0x197b141fc2e8];[0x0;0x12726d2da1244;0xc8e5548c591fa;0x46b44aab1a784;0xa68ea2b0459b6;0x97bbabbf8f50c;0xa9c349f29345f;0x44dd559866d04;0xcc356a11b956d;0x91cd234eaf1f1;0xa40e70a33c0d0]]
 [[[0x36f98ae18003a;0x478bf69ac6341;0x6b0d8545dfd15;0xcc67f53bac28b;0x633d7a5efc677;0xedd0de5e4f743;0xaa37d546ea876;0x4728eccf975d8;0x8cc2247cb9b30;0x35200b42aee];[0x1;0x91766c6e197c4;0x51cd40fe54e32;0x54d5d4d2b431f;0x92523e343a48;0x97a4002644ebc;0x9b8a13fd503a7;0xe3220005492af;0xae5d1e93fc64;0x6ddd13efb9710;0x964489a8d40d4;0x1];[0x1;0xd605eb8170e4;0x3bfcd21841f31;0x4ef2ea70d084d;0xcdd1d9b2febf5;0x1272d93ee374c;0xf1d14defeb281;0x49220455a846f;0x48e4b8424420d;0xa9e832dbf21d6;0x19cfb52637b9];[0x0;0x923ce2f802936;0x3ec330b6d3ed9;0x6d557b92eb66f;0xdc95964addb55;0xb0f0a52c97b63;0x673c37acf444d;0xee9e1a756061f;0x8169995a844f8;0x2045abc5d88a2;0x694a5eacc6924]];
 [[0xb8a0c927813c3;0x211c325519157;0x96e655f8b3dd6;0x23495d2e45eb4;0x9c58f4d05eb6f;0xc52a9810690c4;0xcfac2901e621;0xdd7bd0e41316e;0xb4fd3212116b1;0x17547d8aec8];[0x1;0xac23a58bce81c;0x2f2e17441f7de;0x780166bd64bee;0x3d31c0e9b1d21;0xb16f30f56b992;0xfb574a73393a5;0x4d358981171f;0x2f84c3d7cdc84;0x1ad983c513ad7;0xd1b493a9e83f3;0x1];[0x1;0x22b3267e38b79;0x86f2c7f3a57db;0x4366cdee7482;0x451b91966b5c2;0xecd3890f542b6;0x41638cb4f04c4;0x9d2f3aec159a4;0x82b396a943de2;0x15aa57e3733f0;0x1a8ffded7f84];[0x0;0x87760c1ef132;0x61f64be3e212e;0x8cadf45cfaa8f;0x5394a0a24b54e;0xf9137d6528141;0x525aa9ea6ef77;0xda616f334243c;0xbfc57b92e4863;0xabe635ed81d28;0x2db63ba582c43]];
 [[0x264a64773d06a;0xecd19ce1b7d8d;0xf74043989ee37;0x9e9cf65a6232e;0x4f3f98bc43a03;0x57799f3c80388;0x6a72bd036277e;0xbc9fab9e00ae1;0x50ee550c65c96;0x2d3ed4bcc4c];[0x1;0xe90af713f39b6;0xc093035bd2e6;0x85636b5683c21;0xde52188e022d4;0x7f52a0f191795;0xc660c9d7c83e6;0x944c22b0045d2;0xbba47f0b0fc87;0xbebff934d8e0f;0xa63774916f6cc;0x1];[0x1;0xf4ada054a03a4;0x94a80ff57758;0x5df8bb4529ad9;0x1d995cfd8fdc2;0xb667ecf663a74;0xd82c8ecab7375;0x327d0be0e5f3a;0x6cc2bef303c48;0xbe879ce808ac7;0x1c1fe641b6c9];[0x0;0xeb41129480fe2;0xc142634f5bd8c;0xbbbce8fa7220d;0xf6997be747008;0x1e5ec6537609c;0x26100272e04ee;0xb96d26d8fd8c7;0x3c26e9e41df30;0xde9f2ded19a46;0x596e6ffdc0d4f]];
 [[0x7ca836182239c;0x42d27bca5b99d;0xc3918105570b6;0xf1340f89d1ab8;0x5edf9237c60c5;0xbbece56c2471f;0xa0c3cbfb6cc84;0xb6ce79137810e;0xb62deaacd4dab;0x5836dfc2e18];[0x1;0x6cb191d55a8d4;0xf4589ef0ea51f;0xc508f8f83b6b5;0x6d1e9f09af9f3;0x3e62a8cb1c5c1;0xae249fb7324be;0xd2f061d6760b3;0xe4dadae5e81d1;0xb611f3e8686f6;0x4f754b7666f81;0x1];[0x1;0xc1f1c23f82e10;0xff9fdf94e378d;0x76d0d54012766;0xd12093fb63934;0xc1718f2a0c976;0xf8fb3fbcd618;0x2a8f16c0e8e4e;0x409a9bb230e86;0x4333fbf1ae63e;0x209794cc0e92];[0x0;0x8c8403163e368;0x7e50fbb9188d8;0x411ef478a3495;0xabcd8fa02b03;0xeabe51285af59;0x7830bccf90415;0x7331f6c35d506;0x335e3790ab8c9;0x42e30fd51a47;0xaec5506151c53]];
 [[0x7c12f70bde157;0x1842c275a1422;0x7e2d4ff67d0ec;0xb655a462f8a98;0x88140a4422af8;0x683c621511efa;0x64bd7c684f125;0xd822e4bcc4036;0x8439b90f31861;0x7c89b8df9e5];[0x1;0x8c05919a81862;0xd5afac56efb08;0x8a5a32c827cb;0x1cec81b1f170;0x1ff1dc39991f3;0xfaef4d081e4ea;0x3d1d8aea108b8;0x7fe7b870dd436;0x87af96523dceb;0x6d2495cca0e2;0x1];[0x1;0xd0eb89b614c01;0x9d4a9a6f34725;0x4d1954c6280c5;0x9417a4d01a664;0x832744374d8f8;0x3309fdee568fe;0x452a8426b50d2;0x4bd31b567def7;0xf7c649d970025;0x1ebbfb994ec3];[0x0;0x3270f207db8bb;0xa2c7716b68e79;0x1e3e110d920f7;0xe8d5d810f6eea;0x8c5fa8f2fef1b;0x4b0bcc6119870;0x303209029752a;0xbef9815406854;0xf00804fb9d058;0xf7c2c99341d8c]];
 [[0xdd196fbdbed89;0x9159d69a5cea9;0x58142011a28e8;0x3336586f1cc20;0x6659ce478987b;0xf040f803437b5;0xa3553df16f84e;0xf503e2239b075;0xd3ee7199f2c2a;0x3da4872b6fe];[0x1;0x4ff46b4cf8c2;0x6f5ba55e1cac7;0x549355f3ce995;0x1b463e7d387f6;0x49b81f259bd32;0x24fc31609aa9e;0xe37846c7c99d0;0x9ce02e2a83d14;0xc99791205cd75;0x84b0a2431afe6;0x1];[0x1;0xa9a62884357c1;0x7c7624a07f6a0;0x729eb8e9fc72a;0x54bc0ace66ba4;0x50411b47b4bef;0x8504d9c972161;0x8570bc8011908;0x5b0dd325a7562;0xe7761790462e9;0x1bf7aeca3205];[0x0;0x6a21191b6be21;0x34f1dc15b08e7;0x78c90b7421114;0x577a6dbce352d;0x25b1e3244d6b8;0x680067db22f09;0xa469e9a5494e3;0x8d3bfb8835a06;0x6bcc8792d96bd;0x79aa267c554df]];
 [[0x4d2f5ec8eb6ac;0x4a06bf26a6ac1;0x6e936d5520293;0x9ba45d039e619;0x98d0b9b3139cf;0xb81e79a847479;0xcc3d3053fc866;0x6ef75204c9807;0x8de4ec849921d;0x3040c6f8cc1];[0x1;0x82d876f56d878;0xad4d400987b02;0xdea85b5a44e33;0xc6fef9f5e13cd;0xb2ca22cd839bd;0x6cebfc3141914;0x1a6e1f5437cf9;0x9f8b40943134c;0x412c66b84edc8;0x9f89062881b2e;0x1];[0x1;0x9a0d089b82290;0x28d906a826ce8;0x5c4259191b569;0xb40c075076503;0xbb2bb988682e2;0xd1ee679bf947f;0x701bb6605dcfd;0x8f5de3f704304;0xd1470cb888fd8;0x1694c7089382];[0x0;0x8fbdc5cb1d618;0x172756e417f3a;0xfba78bc26dba5;0x5c28edb5a734c;0xbde10ba7a56ad;0xdf279b332cd29;0x6ad27e33deec2;0x7a3915d0212d9;0xbed2b76415f0b;0x5f5d9c04c37a4]];
 [[0x2a7f5b622dacc;0x1dc1750a3d04c;0x2adc6dc7c7de;0xba56467056440;0x65a0729817308;0x661ed9e8fd940;0xb2c9afcdbcb53;0x6327ecb4a0518;0xc391338c1c2ac;0x708bbda5842];[0x1;0x6b8f21fb4ce2c;0x17c7dc1cb5e39;0x42e214b32364;0x2afcc00778257;0xb6c36e034207a;0xaacd57df05c97;0x9d90e9c88b9ee;0xeea029b453536;0x5aaa926e6f41b;0x1f13f61c6634b;0x1];[0x1;0xe892b1744c190;0xc06a9722f3a94;0xe7683078dc946;0xbdd42de959534;0x80193d7645032;0xf4c740d94c229;0x135b45d8fd22f;0x16acdaef485f4;0x4fa849fdd8cff;0x19ecad74153d];[0x0;0x7d15fe10211ec;0xc04de1de5114;0xec8adc2cdf495;0xea91c76e03fee;0x308373defd6ed;0x4fc1a750215e5;0x509b543b01ece;0xb78383613bda9;0xc1d0d2da133ac;0xe05dafeacdc08]];
 [[0x4fe29b1d4b9f1;0x61f92aa45a93a;0x6c0a0637650ea;0xf84bd4268162a;0x2f192c25fab51;0x3e5e3fecf7330;0xfc00d79a17c7c;0x3c2031a05a302;0x8d2cbea8edbe3;0x2a830f710ad];[0x1;0x2401138354da1;0x1c803b7714735;0xd799265fd2c81;0xec6a41308ec5e;0x94e659f63dbde;0xfa9a19b6ffcda;0xf76b8747207e0;0x12861b1d76742;0x56ab9a9ceab54;0xab9a6cff4d641;0x1];[0x1;0x861af1554d851;0xa2814a160fa01;0x7589b24577096;0xab5dbbbebaaa7;0x9631ea2cd6460;0xf4d62d1405a50;0x93caf1bd98c44;0xe3b014a7c0556;0xb11d08097567a;0x2656bf08c9bd];[0x0;0xeceb8e3834524;0xe6cbd0ec1c4d4;0x4815ab8464e7d;0xb697dc7286807;0xc6d174dab4241;0x38df49ff3c327;0xb0af654d4d671;0xa579f8599b88d;0x12d87f7695046;0x54a1dcead8fdd]];
 [[0x2c0821bbc484a;0x575438f3528cd;0xb85d561ee3dad;0xae29d7b10e98e;0xd21141300a6f5;0xb9d9767a322d9;0xdc21de31dab79;0x40813913ebffb;0x45981d2ba1a72;0x77b16c568cd];[0x1;0x25b054f69488c;0x95edeefd7a5eb;0xdfe1f284147fe;0xf58b741b6c9fa;0x66ddaa8c8c4ec;0x8c6bcbe4e9030;0x95a2d5c1f904d;0xdba640195648f;0xa8bfca9e04971;0x113e207065a27;0x1];[0x1;0xaf09acb44f524;0x69b1582116d3d;0x49fe07fade8ea;0xded5457493301;0x6af516a26ec24;0xb2fcf8754696;0x6c75ab34a9d9d;0x41df54124f454;0x32e93afa07db6;0x14db793c1034];[0x0;0xa946ac7b14b46;0xffc66d16bba78;0x54be2aa0371ec;0x9f61494d2add2;0x705f27e25dac9;0x96838375dd8f1;0x6bb87a7a5952c;0x4c78fa8f84522;0x2ca32b8e5703;0xef4f576c8a7ee]];
 [[0x5fbb5fab1cfd3;0x6cf4e1b1cc34a;0x7a696452e8101;0x26103af490fe3;0xa03782dd82f07;0xb28ea2cba2d03;0x792899cbe1294;0xb05232356d6f;0x7c4272f25386;0x5aefcc24774];[0x1;0xc7c88a29bd9f8;0xae0d52c3eb6ef;0x5ee76d50dc31c;0x7b9687284112;0x7b144d1517ba1;0x3ee6657784c63;0x81f27a7ba27a1;0xdb8ba40fd0179;0x4700d891d196f;0x4a2874248f46a;0x1];[0x1;0xba081aa51e6d9;0x6ba54d0e6cad8;0x48be2e5aa9df8;0x42f10e9400fbc;0x63e33a5c77cd9;0x3d90f1a767a16;0x1a5a8d7fe4fa3;0x8f9094e3816ca;0x98512dc3c7544;0x15d36ab84d95];[0x0;0xe1706c154ed6;0xe1412807d482a;0x5538cc52e8346;0xc678192ef8000;0x51ddf5ee76b3c;0x58a8ebe6e4d99;0xb50ba38ef427;0x689067497f8e1;0x2f582e22b8bdf;0xb497db4bf068d]];
 [[0xfc20ce140a80b;0x12eaedf7051;0x4ac926a497a38;0x5c97243dff1b8;0x8c58a68ffaaaf;0xe9210bd6189a1;0x68e9fc9cd2f17;0xd76b4c10a1c6;0x99f5b16adddd3;0x325ed9b413c];[0x1;0x8f91a8ee175fd;0x7c98c43cd2e7a;0x584afc9531131;0xcae666b1dd03f;0xeabbf4f64e79;0x6338d0834dced;0x9c4e1a5422c25;0x3319f5845e9e4;0x5409e67998085;0x9b6b2daa67c05;0x1];[0x1;0x6146cf991be69;0x7e36dfa580024;0xa0fd1c35314f8;0xbb56363ed1bea;0x679bbfee2e09e;0x98d64163563ea;0xc040fcbdfe5c3;0x947fed0efaa99;0x2a00293a40c25;0x209c3c12b7b2];[0x0;0x246caa044785e;0xa6253011689d7;0xd2fe5f355f540;0x21db053eec0a;0x493a7d1f03093;0xcfc63830a5cb2;0xb2aba17156551;0x72c591b8df9f5;0xaf7ced9a8aeb2;0x635c091381b2f]];
 [[0xb206102874bd8;0xb366abc88b01f;0x8db2667d2ffe7;0x1e87b4c3852ee;0xb126cb5e928f4;0x70b7dfb85f75d;0x24b2ad7496e64;0x778b43ad51589;0xcb5c3a5a3870c;0x4bf541a0505];[0x1;0x62a5cb3d32650;0x5ca11100cc604;0x46a2cdd489c0a;0xfd6e93f505949;0xaac24e511bcb2;0x3d2213efff738;0xd8f3350893408;0xc4197d517d5ec;0x88091ab8be6ae;0x684b2b36632b0;0x1];[0x1;0x69884e5954240;0x447d118bd72f;0x2d35829cef16d;0x47857db5a220a;0x9afff63cd3da3;0xf598d17424491;0x97453ef47ef6;0x628b049ed3519;0xe9da7f17bc932;0x1fd5088b1cab];[0x0;0x5dddca302b830;0x13175913d3fe2;0xcb8b3b33d6d93;0x70713548372e3;0x2a991f603db7e;0xe1fd34929eacc;0x14dfb1f9cc3d4;0x918eab998fa90;0xbfc7b401a09f2;0x972e1a7f9be70]];
 [[0xbf092bfa4a86c;0xa64f57da54f4c;0xee53a593bf038;0xf8e133e9914f6;0x864c46ca678a0;0x9732920c17db0;0x64386a7b09a09;0xec5b194711ff3;0xc520324681dc8;0x1ef7e8f0960];[0x1;0x76f5a695bd57c;0x2975b09bb7601;0x18ab133fc128d;0xfaf5e964964ed;0x8e382de770345;0xafa291b3f4305;0x73634c039448f;0x76f73718deb99;0x93e90193c2d8b;0xc2d1b4d161c53;0x1];[0x1;0x33a4d770d6c90;0xf2e58273de83c;0x9bec522ffb2fb;0xd7c3e572c8773;0x6fb29b7bb4832;0x9e31f39b9a37c;0x49e792297465a;0x5e3ca916f8a47;0x39773c51d1430;0x20dd8675613b];[0x0;0x639c8e3e108cc;0x90a73559b860d;0xcb34e237b9188;0x9cd1cc9a99944;0x32cfc4fbb2be7;0x261fa39bfd624;0x2b862a8f284f6;0xf1a9f44c0312e;0x7328e7af1ea8d;0x3cbe4edc15c75]];
 [[0x80827c24fefc5;0x20306a7ee44b8;0xaeda64aed8949;0xa325185cf6227;0x96ccc4c1a8e72;0xae00d31ef7a61;0x774971b3cefb6;0xee5d8d405503;0x62b25d7b653a8;0x5a28184a35e];[0x1;0x5fc967bda2619;0xd6b23e2809da5;0x7ef8f3d5dbd7;0xaf336481b1eb1;0xa4fbccf1e18c2;0xb1aa9c01a6073;0x87469be85a7fb;0xf38ded0577c1;0x2837551743539;0x4b8bb3be5c779;0x1];[0x1;0x5b96248ca9989;0xea0b105a5f5ea;0x929106a8af47c;0x27dc2bdb0d2a7;0x5e5554db6ae36;0x91a3c7d81f706;0xccf791dea8e04;0x22ac6c94ec14c;0xe3dca53df065e;0x20e94968644a];[0x0;0xf1c76774d1ac5;0x736c2ede932e2;0xbdba36f1223c1;0xa7f9727b1a9a0;0xc9924c4a44494;0x61d3437f79448;0x9ebade14a8ec5;0xcfebb406e24ba;0xb41c5ed1aabf;0xb3553a80d10c6]]]
 (V [0x1471ed8f54ecb;0xdc0744c05a8dd;0x9b7a48704dfc3;0x79e58fb2bfa6c;0x1d5e2f21bff7;0x17c33242456b;0xc72aa315f8a06;0x2f6d18f94c8dc;0x1f2f80c451047;0x5ddf4b9601d] [0x57bd8e484141c;0x209090a2725f2;0x3bb9a139b2b0a;0x2d8b5dfdb274a;0xe976eaf861105;0xd26a2809bf371;0x5045f867b702c;0x53774d6d8e8bb;0xc4d5a8a6ba24f;0xc845e4c686]) [[0xb14b59d543502;0xaed221025a1a0;0xb1ac41183280f;0x16bd4b28dd32;0x604593870143c;0x598a0096a3a68;0x64f02ae93b6dd;0x4f03a34922ce5;0x92b9c7e1ef754;0xb3d79040b0];[0x1;0x887e81dd88cf4;0xefdd921a49955;0xa0fa0e6cc56bb;0xbec7791fe6e1e;0x9af100646bd87;0x3ae1114e4a441;0xb8ecd1ffe4008;0xf8ffd80d66f6e;0x11fd3d803dd4a;0xeaacd3dc94329;0x1];[0x1;0x15f56628519c4;0x502cd4a8cda3d;0xd8cb0df79e69b;0x5fc640c7dae7a;0x79ddc52a56e7d;0xda4a7de3112f3;0x8254ab6e36468;0xa2078823716e1;0xde6b55113a251;0x226fc430afc3];[0x0;0x1dae64a6618c0;0x525f34fb57bff;0x453c0926b3fcd;0xbc57e08420fe5;0x2820cfe917886;0x9d1c08c3961cd;0x41325aa511dc4;0x4c9e5c04bce59;0xf4d36aac6ae01;0x162a613741a4a]]
 [((V [0x90fd960f7853f;0x4c37e245f0c4;0x58b3c212d81b6;0x1d71620683aec;0xeec9b55568d5f;0x616cbbcc152e1;0xd581cce7407ab;0xadaa0687b9f2f;0x8052460f880f5;0x1d40efda71a] [0xe17e0541edfcc;0x26aefcf8b2b2b;0xe2373f2f81dae;0xf261cf01e2997;0x69f361780e6db;0x173aa6d43b2b7;0xb17f3bf7331ed;0x77962b15e973e;0x8d436298e985f;0x61537bf1a1]),[[0xfa2ad08e40adc;0x64d4adf194df2;0x2206a136d6f55;0x2c7882e97b9c9;0xa0293829dc376;0xcb0114fb35eb9;0xc9a3fbe02847a;0x1e7ff798a161e;0x49418482ff793;0x3665df7df2f];[0xef325b9be0c21;0x6376f18209e86;0xd12b5aac2bbf9;0x88a5cea16e72a;0x249913924267e;0xf637929892a7a;0x2902223d112d9;0x798809948fec4;0xea4a51856bf11;0x2c48419b3bf];[0x1;0xb070c723a1ae9;0x21a2a5b19105;0x16f0508869ce7;0xb66083f632ab5;0x46617a80364fc;0xf7ae20085dad5;0xfcd054c23959a;0xf9bdc371df6f1;0x762c0d9bb9def;0x13b883d6f20];[0x1;0xeebe2031cee20;0x64c615d23ec47;0x9f55362401c92;0x2ee0d5c95d02c;0x525d8e6355cd2;0x2898dfe1a408a;0x18c7df834f0ca;0xaa343f9e51e15;0x8ec6b8152ad36;0xff0ded7844a];[0x1;0x436fb0464b410;0xd1807cdb97aae;0x1f7d226653cae;0x3bc94fc39d931;0x8a3fe7c025226;0xdb5bb51c6e426;0x7974b9dbf1d5a;0x9eb69ed58fd3;0xcb8c038ee602c;0x19ae0c8666c9];[0x0;0x7110dfa47638c;0x26e38cf00554c;0x85a10c2fe09f7;0x23d0e49a07ce5;0x689dbf1376855;0xd55c545d4c069;0xe3e3cf9faac32;0xc449023de9afe;0x12b56e10a969e;0x6cf867ebc7d30]]);
 ((V [0xb61884ad5fb68;0x2d8551c780c8d;0x701628c9d72c3;0x2884fd59cae59;0x4d78dbb0c04d6;0x3eb6b2a8bf75e;0x26c7c52a09a8d;0xb55cbf5248018;0x11ab88229c91;0x569d5b38b1e] [0x6dd532bd29ec5;0xbd891d1695ef;0xd01ab69681531;0xfdacffb1fbeb5;0x9a2a2674f4ed0;0x25ac71d58500b;0xf9ffd8b596884;0x9b239a584c9c;0xe68669d505366;0x3d113bf1c0a]),[[0x2e342be4a9a5;0xeea2d0bec596c;0x4c2ebf97204a3;0xb6156f8c3cbf6;0x521be9a0664aa;0x1cfbf54231efa;0xb7221519b586a;0xfd7dba8bec573;0xb7e9bae07d9f8;0x41a95b68a32];[0x617b0e00e7406;0x753da4b0d2f07;0x7e76c54cf410d;0xbce77a78f3954;0x2d26da2d4e05b;0xb0b782f3abaa1;0x36a08cc3ea652;0xa5e3f6199b1dc;0xca65dd185be0;0x104517fdc49];[0x1;0x975f6a2430ef1;0x18146bd5c3340;0xeeaf7fb5800c6;0xa66ed6a9b71d7;0xbe358f316fba;0x788b021c36ce4;0xed17f7d870330;0xf8724bea27dbe;0xc95371d6e4124;0x19daa25af1b];[0x1;0x499978bd4f978;0x57f83545e24b6;0xefe6c9baf1af0;0xd145e14afb3e1;0x2c8e7226b8a53;0x19853480f851;0xfcfd7abdf3333;0x6a164a0bcac91;0x221615ab74ae8;0x5b60ea9d330];[0x1;0xf8ac5bab32449;0x67e90bc2a119a;0xf2d74b137d248;0xa9c0ba9787316;0x1535ea3c0edc7;0xdca1389a60087;0x9510f136c477f;0xa6b021dd9b123;0x20eec559bc933;0x1008f94f1431];[0x0;0x16cb47953d9c2;0xd9b31329810ab;0xc254abe75fe03;0x8d9da300998ca;0x76f2ae9701955;0x979222c2b1835;0xf65e1d02bacd2;0x2023bb4be0b0;0x18fa2282db452;0x82f0a671cb0d0]]);
 ((V [0xf1c7ff595d50d;0x1e56c1b49a921;0x6a82388d494b7;0xb908d99a385e2;0xb2699e7e845da;0x81ed653ffc90c;0x78056a860fd67;0x3709e5b20a632;0x72cd9ac10977e;0x2f3be31e07] [0x79cdd5ff06e12;0x899b8aa0dbad3;0xa0cbec57566fc;0x525e142bb9ef8;0x681ef7e48058a;0x608cd70b5d6f1;0xe1a1a998cb44;0x3e3c2d921b4eb;0x680b808724899;0x2975dcfdbf0]),[[0x933d4d69b4a25;0x575711f9dc94a;0x40e4eb749dbaf;0xb4c58af0feb31;0x97e30a4f60a01;0x48b45764481d5;0x351cd915ec084;0xbe270a805a243;0x8df2200a9186f;0x5e68db0183f];[0x9b552c16505ff;0x28966ab18a61c;0xc3816b9152e45;0x3b12976e09e6e;0x300a0d221c269;0xf64a390ca2141;0xfb1c0f62de2cd;0x2791387359b9b;0x8f4b04ba20e75;0x315ee89c46f];[0x1;0xfff380832d640;0x4b9220733492a;0x9f701ede9c0a7;0xedb86b3746bc3;0xdc6d44a6d1cbe;0xf48c9def8ff7b;0x8c0ade57cd7e9;0xd9c812bdc53e8;0x5c1ef8b2d10d9;0x28219d3256d];[0x1;0x6a469bf4de4d2;0xb2bb79e80e506;0xf239f0e008aff;0x1fef212d4a542;0xf39f363150a51;0xf053e06d6c0ed;0x5d3a3a6f25d9f;0x2e787a7328023;0xb89e1fa2ec7a8;0xce2416a4c2a];[0x1;0xc8b724cbc7949;0x89dc3ca8cdaff;0xf107314fc1f87;0x49558465336;0xf5421fa9949e9;0x7df6d10a8c363;0xdf2c8a260c009;0xa5080ca1a155;0xb74a0bcf50f31;0x11aba91b6f56];[0x0;0xc8bae200032ee;0xdb59dab41948d;0x43ecaa06bc8b8;0x464e965811e50;0xe85425563a520;0x75c1c1c2a43a9;0xc05b6050a4013;0x1ff68ebebe233;0xfa3ae1a5ad46f;0xbca0c5c4703dd]]);
 ((V [0x7288425aac738;0x976a4be549727;0xd9ba72143111;0x8815f6052134;0xc937f19dffa0f;0x8921737bb8996;0x96b190b1d4f7;0x9adbdaaa81c9d;0xb3ea9c393ac2c;0x56cfff0d3e0] [0xd90ad622747f7;0x354ede8805b5;0xb0db2ad24e2d3;0xb345d131b0c54;0xc7e8143b314e3;0x816691b28b0be;0x14f08ac824506;0x9007f01d1a1b5;0x3839a203663ee;0x7534470896d]),[[0x83e33e916c1c3;0x95cc8e19bb181;0xadbc39af9567e;0xb4e47d28110a1;0xa1b5aab9156a;0xed0dbbe3c4e12;0x6e1d0cf490f03;0x665f021eb6e6c;0x3dfc6f6ec74f9;0xb7a28a747];[0x1fa30860e5f92;0x34b398c1a172f;0xe71778e4f0d2;0x70a735cd88892;0x885e5693cbe49;0x466d17ace550c;0x88f0bc4cddc7f;0x15948dceb1409;0x4e0b20a11b69a;0x1a41c36fa69];[0x1;0x7548043da1599;0xe750afd843c23;0x7ad2f028de9dc;0xe18cf0ae840c0;0x167ba5e708011;0x84c0beec89bb3;0xad85ab7de54dd;0xb918094b05ac3;0x99dadca438010;0x347218c87e2];[0x1;0x98dddf1523eac;0x8750068e0a119;0xe06e2c2f31e0c;0x88c2a9686f78a;0x8b2b57e6d4f13;0x8ed99f06ce0d2;0xc27f45e382526;0x7f20a659be830;0x78d9b3d8da72d;0x9d139e4df8f];[0x1;0x6dd3410855f79;0x48f41721dd9db;0x3b06eaa45574c;0x94975a9f5514;0x4e4f484e56758;0x7510ec1781d39;0xd5e6f8460067;0x62825101f9ed5;0x728dd884315aa;0xb96def6e6ba];[0x0;0x84e00fa164ef4;0xe98d2ae238c64;0x83891db2629b1;0xce3a2f122c46e;0x42752d468e5a8;0x8ec96fbf5efb;0x7460a459c1d32;0x3c1574f9a92c8;0x887299777e44a;0x323020047f0]]);
 ((V [0x4d6707bcdea7a;0xfba24da080a5b;0x202a387e5c120;0x87301c075b15d;0xb908f10f777a9;0x58749bda7af33;0xbe070e416e2e6;0x22d32bc7e079e;0x94803043f6c1d;0xf24d3988dd] [0xcd1ff06811b2e;0x5af6ee94b2406;0x5dda4b0b212f8;0x45916f98ff430;0xb00679ca562f5;0x19d27ac381cb6;0x373d62233b250;0x26ba913b262c3;0x34149c182d02d;0x448f8553f9b]),[[0x69c07c5e354af;0xd348b0d47be9e;0x71a4bd4b9723b;0xd05c3dec1e7f;0x32e9428c2b073;0xa5c20d679e3e9;0x299aa0bd40a8f;0xf29c0eb945770;0x724944f04a35c;0x53ccdd08258];[0x38c167f4cef7c;0xbadab554f84d6;0xdf8ea1e7f872e;0x5e1d5fb3a5725;0x38d7a53db67f4;0x6193cf6705b63;0xebcbf4a31d05f;0x3a1fa12b3b666;0xa72b9f63e8d57;0x7d878950774];[0x1;0x15a82da38b840;0xce576ea20019;0xfb5e0e57800e7;0xc0842a22ae4e4;0xadcb2939d9cf8;0x3a099cfe9879e;0xc4aef2ef2e2ed;0x2e90408b2fc00;0xa584d9a921244;0xc02e41ea382];[0x1;0x487e5bb658b92;0xd032c0fee1d21;0x754f7f65107dd;0x20a568581f316;0xec9739831b108;0xe55a96ab3d96c;0x1f49e38c99155;0xbbb3b8f6bd6ff;0x75f435caae182;0x257b64059cc3];[0x1;0x7c99fa6ea6711;0xc02d1c8eca777;0x90001dd7cff25;0x420fa0a8e32e6;0x3fe3325708885;0x148748dad1e45;0x96fb3f244a277;0x988337cd8165f;0xe865cc162430c;0x142acacdd7b8];[0x0;0x3d4fdd5473fed;0xde3965aca41f3;0x524e30c24b583;0x155c236b9c152;0xe0e90b678b5ff;0x865f7c9a70da9;0x8e6460c24547a;0xcc798b11bf551;0x94e0fd40769b9;0xa6a8eb075717b]]);
 ((V [0xcc06f696791a5;0x5cd1fc7e3724b;0xdf8e82b06eabb;0xa4223d59c982;0x8880edaeeef23;0x9dea496c4448d;0xc14b785d5c5a6;0xd7efd5b3861bc;0x12b88120c7d47;0x7587d78eaad] [0xdbd7179b510a8;0xbe42e4dd8815f;0x3c0f084f10fad;0x1f8927c18f175;0xe674144f82ef7;0x1d107d68db766;0xc706717674f6;0xe376d2a7e44e7;0xac0529891fff8;0x4b80c339895]),[[0x98bc286b71546;0x840030b56e8e8;0x4f91d82657d2d;0xf4d0b5e530f35;0x3877b9e09b327;0x9e66fca69c84;0x383c76506dc9e;0x9861f056f8305;0x5a50b514dd48d;0x6d1ac24bd3b];[0x2535cccb6ec3c;0xd2c3808313a41;0xcef10e6f29d65;0x58bfb4370e27e;0xc09a002b25b71;0xeaa104363dda3;0xf96fa9e6e9a59;0x9802e1848ff5f;0xb84f114ab5334;0x66040327ce2];[0x1;0x2bb9b3844d5e4;0x72af7ab21fbfd;0x1a20de89dc20b;0xb7878bc08cb1d;0x2e9f05b980aff;0x70718df75ba0e;0x55afbba6f56de;0x644e53e66cc0f;0xea94f17fe48bd;0xca3d5a1f777];[0x1;0x3f3cdd492a8;0xd2596ed7dd94d;0x436fd5ebd335e;0xfe9540d929cd5;0xe7c244688d9ce;0xbfd8b23dbcafb;0x6cdc3856490f6;0x239615b7e96e3;0xfd40e4c48dd04;0x1ef36f9695e7];[0x1;0x794e83ef4d2e4;0xa2b0d50cf4e2b;0xcb7fdc0880c06;0x189868998feb0;0xa927b8adeaad0;0xe67890d79df27;0xac0ed9f1487e;0x9dbfa21490f2c;0xa118fceb37fc6;0xcaa364fe52b];[0x0;0x9dfeb590574e8;0x736b9a6b9009a;0x71845291fa60d;0x5de8f196e22e7;0xa030e5cd6adfb;0x655278514534c;0x8f6564cb96373;0xf6706ca49e3f;0xce3af0784ce21;0xd92b390ff11cd]]);
 ((V [0x16a41ffb91f29;0x343747b6b9c0d;0xbf43e4f019ea8;0x5736f3b31599;0xdc4f78d385d50;0x8a6b69b24a01d;0x867c5434c758;0x9e5ce0cdf6411;0x2cca19da03a01;0x2bc467c95ea] [0x568c4049edca0;0xcd3fd87be9ab7;0x9652940af0202;0x71ef9fae94104;0xe9bedeb1bc07d;0x20dea0df52f04;0x396968ec79684;0xa03b2f846722d;0xc3b6deddee3d6;0x77d7d75a370]),[[0xecf55a7952b34;0x7e18483b22301;0x70844a810a45c;0x6a31aa8a27b14;0xf95d2cc4c7053;0x729a38354c9e0;0x5e31ae81fb67;0x2058b215b77e8;0xed3a6170527e2;0x15ffcf18077];[0xfce24f133185a;0xd274aa8ef103c;0xc51d015c35862;0x564b2543c11f0;0x36f3a0e87bb95;0xf95cae8326e6e;0x92cc37c2a4586;0x58571f5d31447;0xc24247cfb6eaa;0x2bbffcb2827];[0x0;0xf7a0ee656cbb7;0x7ac192cb8963b;0xe2b05b078f01c;0x35d773a108bee;0xb0cd8f57383fd;0x183d8246a2162;0xb44ac06caa919;0x914d1d0018ce3;0x515e2c58ae06;0x146aecd5e74];[0x1;0x902e8d23a5040;0x7bfb47c8bb851;0x9f0ba3d3e0c3a;0x652ad6bcf5519;0x4b50dc761bbe1;0xc077c02c8b916;0x6a1e1f248ecdf;0xcaa82814e3f28;0x8c9c96998c4ca;0xec8be2c5840];[0x1;0x49b1e67683190;0xa48d64088d7fd;0x3c196fe050ea;0xaa7b6f6c1f7f7;0xe1c92c1e3a464;0x51f6f97f78917;0xbcbc6cb642fce;0xfa7c793e5b397;0x70fdcb59411f3;0x229e03e9d134];[0x0;0xd73145cf90904;0x3d93a001bf350;0xc51e8a258bc6b;0x46019d7737a8e;0xd6672fb1dc9a5;0x5c7b3f7beab37;0x106011edacbe9;0x2dbe10c9d65ad;0xd54edea2d1fb5;0x2a9b9a4506759]]);
 ((V [0xf27b0c17a7166;0x420d43296ffe8;0x3056abe8659b;0xc9651c72f25e0;0xbaa24a626a940;0x38a9a0647f446;0x3b44231dcb3d1;0xd4b307ab50417;0x95ed12a4dbd8a;0x18abe5fdba3] [0x7999b176c31f9;0x77aa9f7dfa0c;0x240ba3c547104;0xe4995bbf26776;0xf965c7d50d2b1;0x70675c8a2cf0b;0xd2d5c95e1035b;0xc23383b57f3df;0x316ee7017cf23;0x5c2daf81a7b]),[[0x5b8bd0535d98e;0x45d8617bd8b50;0x79db0bfc88caa;0x76be12cc17680;0xcb423117d2103;0xb0a5097248655;0xc3adc49f45b3d;0xf474492d8f0b4;0xac1b4f8dd78e9;0x2d2ab3a7854];[0x3efeae7087608;0xdbd65c9d41b75;0xb78948721e27b;0x22e302bd95b6a;0x147eb8f6ff2bb;0x2674ff8174f3b;0xff626721ec081;0x72612d6064ac8;0xcbb7e8d081f41;0x25273fd4c96];[0x1;0xc3720d4cd2501;0x13ca0db33bd78;0x99654064c36eb;0x23ed779bd6324;0xe5fecd95a5952;0x6e941b711ace5;0x1662a806e788b;0xa117ea0fe4e19;0xaf1d4569f2bfa;0x3b575c901a6];[0x1;0xe03a3e4362980;0xc479ead78f4b4;0xf1802d4a94f4c;0xa73aee4f058a;0x595edbfed1bd6;0xe2f0c39b1b7f9;0x16f789d8b776b;0x46b550ab8240e;0x4e1f6e777794f;0x8a57c582978];[0x1;0x794be46b00484;0x3577ce2db09e3;0xc71ef85be0cb1;0x2c740f3144683;0xb28633a2842c;0x67e60b1bcb435;0x1626794c66f2;0x45c8cae79d0d6;0xe82dafdb83646;0xd0795690432];[0x0;0xaa9c45adc1c04;0x9919f435f95a8;0xbfc14a0f73368;0x986020242ee76;0xe30174b86b0c;0x65090d900bcdb;0x78b423178a76a;0x4acc1f1c05e27;0xd47abcfce3815;0x58e143f173cf4]]);
 ((V [0xc546c0a54a8b8;0xe8f78c2bd3f89;0xbfc062558e807;0xb09dff6ec7776;0xf70292ba1b14e;0x57a8b8902e24b;0x502f6be40ee4d;0x4cd349fcf8a05;0x8e7d47d142b9;0x6e87ab8d5b4] [0x14058896728ee;0x72ef4e1469526;0x85926380785fc;0x3dc0c284b0067;0x8a9183304db5f;0xb852a1d7ad9f3;0x911f227b8cae8;0x37af61b0c67c5;0x6cbefc266d4ed;0xb6bb839453]),[[0x5a8f1d0aeed9c;0xd5d19618f25a4;0xd891eb722bd98;0x5ee21979a24f7;0xf95b92f29f1b8;0xd21f3551b4b18;0x92d917f897606;0xd17565fd848ff;0xcdad7eaddda92;0xb1bccd9327];[0x6ee329c440b5a;0xa2dc1088e16e8;0xfa3fa84d2a579;0x9f13a22299f4c;0xbe40cb624ca61;0x9fdd5376a6998;0x924fe87aa546e;0x7ecf68fc4ad16;0x9baf7aedfb682;0x7c080ce9d4];[0x1;0xb2e78654d6064;0x3b5805e0f18ef;0x826af56d977b8;0x726b4c5f76663;0xa3d678b7e2e5d;0x52798685b906;0x88548d9103826;0x7ded2ed7c298b;0x8bcf16072aba;0xabfa483f59];[0x1;0x4b1c099860df8;0x75615400aeea2;0x4dc8143c25ee3;0x9df9f2de713b2;0x64d9c019acc3c;0x98f5cf89b6a7a;0x42596987ed24d;0x358a31b05866d;0x8fb540d467db6;0x1e83205ce92];[0x1;0xc6cbe95135e10;0xf55c27fad2c1d;0x38459e3308cdb;0x7cc2ec5a7c832;0x186d7df790489;0x8cae01330df13;0x5a36505c3f975;0xd197cd4da0875;0x2147a8c93fef6;0x13ec821d2974];[0x0;0xb8e11f367ba14;0x7e1533f45dfb1;0x35ab98bfd405c;0x841619cbdcc23;0x89e388e1d1346;0x646cb76068e13;0xaf81b5131f7ca;0x7797bd2dd95eb;0xcc053576137bf;0x156c0f270a5ae]]);
 ((V [0x294f9a8e9254d;0xf4456b7609441;0x49707a7c314a8;0xa0cb8df192d0a;0xadb5b11484456;0x8d950726a6e1c;0xc50958e8575ad;0x850ce58dcd5ec;0x90ce89b30fd6c;0x2ed4976a98e] [0x56d408e93107;0x8e1a98e92b7f4;0x332377152e916;0x63dad6fe6593;0x5c84b3759a3b4;0x3b45a3ba02654;0xa3f31ca090cb5;0xda552055c10a6;0xf68857a19e51b;0x62bc8928447]),[[0x932f886860c3e;0x70d0370a6ad7d;0x3a35ea2fe4bcc;0xa9a59e2b727be;0xadc84af97ceb9;0x61ef30f61312a;0x47011ec42772c;0x2122f8ddd2d05;0xce821c3b63cca;0x663e391b1c7];[0x90799c73ca69f;0x3e8ccbcb1e995;0x4336376a5d9d0;0xde57c0192f1e9;0xbda8eef86adfb;0x5ec8c2859a456;0x8ceace1cede51;0x862e22f407731;0x963daa9fc834a;0x6ae04c39531];[0x1;0xfd6e108002040;0xd3670f9ee1ab;0x1d9b2377d19e6;0x72a5e22831d43;0x626a66341d590;0xd550f813aa847;0x2aeaa99208b2f;0x3c2129727b311;0x30ab5a8474b6f;0x764ed9caed4];[0x1;0x2d9c4a585dac8;0x463af0d4b43a4;0xde54f78f2d0e4;0xe70be10b56e4d;0x9d6769755d8c0;0xc5b2c52318009;0x24dfe076b2133;0x6c099e42176ad;0x3d07bcd8de42f;0x26f0301316e3];[0x1;0xb463df768f4c4;0xfb7d0b707ee63;0xff0ee1e81c331;0x317f189a9e375;0xe18eb886f4f53;0x88e41b82930d5;0x94a33092976bf;0x29bc17b8d6464;0xf7db25b3fdc52;0x1c61c93c7fda];[0x0;0x46761cd450ff4;0xa94955c7aab5d;0x8cd704451b1d7;0xb1f6f7a9680e4;0xf79a1f935507a;0xabd3bf1afb211;0x3a4f0aa732b52;0xad57cfc729fd1;0xfafac692a57f1;0xcc394197c5b37]]);
 ((V [0x561c210f3868d;0xe183438efd279;0xa724fcddddcdc;0xd5904487f70df;0xecfd6d2663a09;0x794c248591ef9;0xda32ecfcf366b;0x2500a4a433c68;0x7086865748728;0x8b5d43b3b9] [0xd3ffe38b2a281;0x1905491812562;0x46b6b6c13211a;0x62adda9b3149;0xd30d466dee519;0xd020fe087c687;0xa7b4b0cbd587b;0x4f2cc03b94f31;0xc3643986cda83;0x3f2d1c2ae25]),[[0x641cf26596679;0x515f869c9a2a9;0x140c14fdea089;0xef80bd7f3e4a8;0x1f8458f034d89;0xd5914f7f96ff9;0xa6361f94619d9;0x489f574922d2f;0x2504d61fffdae;0x2badbd5764];[0xb57ee613c01d3;0xa9c5443f3c919;0xfd1be82f31e3c;0x6015c759842a;0xdf01e0b683307;0xe0a8c0278175c;0xef5263eaeed2b;0xa25191bbf3f78;0x2d4ff893810d3;0x5f70e0fd15d];[0x1;0x394ed5e992419;0xf33663e700788;0xf931ef3e17f07;0xdddb378951823;0xb9278b90faa5a;0x7ee59cbfcf195;0xea7b3d514fe9c;0xbdc2c211f34d2;0x5cb314d4582d7;0xadbf940f498];[0x1;0xeba18161acfbe;0x8879a026aeb9b;0x36b9e5a8460c2;0x86730650f685b;0x45e1c0a0fe15b;0x42798919eb953;0x96db5659201c1;0xda30202e6cfe7;0x5c0d6989a8be2;0x2386f1a902c8];[0x1;0x8b8e831f8bba1;0x9ce82af4bf46f;0xc172ae88839e8;0x840d8578e873f;0x240a195d87111;0x2452395299eef;0x2d1c94fb14ec4;0xda86382594a80;0x2ac907ef9c0cf;0xccaf1e79d13];[0x0;0xaa83b2d13bb9;0x7dde2c6fcd373;0x17df514b56804;0x78b7a3b75cf7b;0x6214e9e61462a;0xc72224270f6e2;0x80e9df4b6171a;0x5b39c3e9e5a0a;0x82f1fa640801;0x4356f5d543fd]]);
 ((V [0x4b4cce673eb0f;0x45269f03058c9;0x34c6c9a003558;0x7756014244cb1;0x1828931377974;0x2b3645c89ee68;0xce948ca6f5845;0xc7e230f33fe18;0xc53a3ef09086f;0x27ca311a54] [0x34321252a4020;0x78aa7fbe2d4be;0xb61b138dd05c1;0x42028aa7cb7c6;0xd2d5dcbdbb89f;0xe1631b3ca60e8;0x9905334ce74cd;0xe9b956f4f0f00;0x31b8567eb93ab;0x2767be6082c]),[[0xdf7fb4c4ca5f2;0x6b45cc3058e2e;0x5bde6e38afa3b;0x58987d41c83d9;0x87e66dcb917bb;0x37083274119e6;0x94feb8a7f7e48;0x2cf31e34cb864;0xd2d21858b3aa5;0x336f34a6169];[0xb3b758cec8544;0x135bfdcb74bbe;0xd4a59a956201c;0xeb668f96947a0;0xcc54cca80aab8;0x9ce046333c875;0x51c756876e328;0x5c6185c1dd8db;0x7aa7b97b5c46;0x229b40e1763];[0x1;0xa16c5ecc56c99;0xc57dc2275755b;0x9e21e2629e7ec;0xe7a2a375e0fda;0x56450cf87d2c7;0xaff309552b101;0xd91989b5eb255;0xdb14902db2c99;0x53c514835bbd3;0x449ec4efed8];[0x1;0xdd6051c47da4;0xe2010c53af81c;0x7eab67bdd69c9;0xd8c9a5aed4854;0x13cd881261ac0;0xb3418e7b569c5;0x9ae4cda82ee27;0x9dea1d751c3ca;0xa3cb7ad068b06;0x9cddcca1242];[0x1;0x4657ec97bf284;0x21cfc21ae8754;0x49f6df255ab8f;0x285ef631a9fa7;0x88d8d0dc4ece;0x7a0b6b7b3e9d2;0xde05d8ea170bb;0xa7e168c8fbe;0x8867616fe8953;0x1325987e793];[0x0;0x58dcf3f845e96;0x83b54ee08c90e;0xb710374896300;0x496d035d6be16;0xaa38fb96a0677;0x3bb69d4c5523e;0x4d08fad86f182;0x44e7665dd3b68;0x90532168c1988;0x66472efd7b09e]]);
 ((V [0x57befa67a0b27;0x93645fa6bcda9;0xe02fc25c64d21;0x8fe4d75d4aa28;0xadf15f3a899d6;0xebd1f7961a005;0x2384c24512595;0x9bba089b6a95e;0x7be2587e68bd4;0x7534bb2e844] [0x56fdee0549225;0xa00f520f5c50d;0x7e58262a4f4dc;0xcae76f6311b46;0x391e8866a47d8;0x444823c4d2035;0x6efcd91837516;0x936047edf633c;0x889f622f00601;0x4a0d5b259e7]),[[0x16375fe205e95;0x4c297ce69bc1b;0xd86f06c213992;0xe9b4b02e35b2c;0x85a9b21e2de36;0xeb879fcb77239;0x374acd559108a;0xa6c6736980815;0x2e1858a33c847;0x5571d2c7359];[0xb650b8af579a9;0x6f63d5eb2191b;0xfc2f943214e74;0x814060dd81a7e;0xc32f6c93fa37f;0x142049a44592e;0xa264a8d27032f;0x25b58b59e000;0x8cc74553ca4de;0x4460ab77cb3];[0x1;0x926b6bd28ce51;0x1625524196671;0x6e079f50df5a7;0xc4ce427d3d3b2;0x18d4f5f5c5d66;0x6b47d48c7ad4c;0x8b89036bc438e;0x806ada71298e0;0x7fefc5a9f2e7b;0x88b4f87a475];[0x1;0xb735c65e3b140;0x2063495ef1445;0x64fec686e318e;0x596a24e0e8890;0xd76ebe498746d;0xb3d50dd12025f;0x5fea611cefd51;0xd6faad79897a5;0x5cf5c4675d0b3;0x165a82703630];[0x1;0xddfd68ba34ca9;0xcc0e31a627d01;0x4f4272066f63b;0x1778aec1b801;0x4f04ec2623cf1;0x75ae93d601063;0x2e3449ba75b60;0x505ec626257da;0x8422ca17cbbf9;0xbb52717b87c];[0x0;0x1b1c31671b0d;0xaa5cf07831562;0x17f1c7c3211b9;0xba7e36b049acd;0x97b6793c7eefd;0x3a4a4953fe1d2;0x5a835fc7c84a7;0xd1186f3bf8d13;0x61a26e1b9c176;0xaa0998eab5118]]);
 ((V [0xd33ba6a888c3b;0xc8a56390b896a;0xff368cb8f712c;0x6d751f1f97ed1;0x756edcd16e967;0x889ff52900b40;0x764f0e14d8211;0x70653a391ed13;0x1dc70196dcc32;0x31ab256ffcd] [0x6add8130e72aa;0x448ad898ddbb;0x8a4746726ef29;0xf38309bfd05bb;0xdcf870e498a3e;0xf6e09fd9164fc;0xbd6ac34656338;0x9f6095dd8adb8;0xde392c9215aca;0x6bc145e880e]),[[0x42983b737bd12;0xa7f7704f11d40;0x8f6dd977017da;0x8909979415e7;0xbf3301bb59aab;0x9b59ae5f1f520;0xf7c2ed74f75ca;0xdca1153e9df73;0xc00a67bc593e6;0x250cb8fc0d1];[0xfe7f9377c0d44;0x9b54c704acc86;0x15ecbef6ebba4;0x26d32e2385e0b;0xb9e74f41d01c6;0xb1dfad05d0058;0xed87d17d03780;0x6a030e2dc1bc8;0xefd35313eca4b;0x5a2af8495e2];[0x1;0x73331aa2eea61;0x28befb0525af6;0x97d43f5464218;0xab5225ab1dd78;0x39bb276dea9a0;0x16873aeb1e3c4;0xfa7b5e1566e78;0xc7ec0b05b5bdc;0x55d1a0bb33d31;0x490374a88b0];[0x1;0xae7ad9a4189f4;0x85b8bd0351bff;0x976c0b2cf077;0xd3fcb332de8a;0x2fb1750fda2fb;0xec33c9854a968;0xd0d298fbe87f6;0xc3cb44054c85c;0x600c4f5c0dee;0x1f223607b54a];[0x1;0x937a728a704;0xce6934b48afc5;0x68eddb9d51822;0x3caff34645589;0x3c4a70fe86cd0;0xd83566175b686;0x516a912965f35;0x9fb2e00ac799f;0x575d1d2376f88;0x22d6fdb64989];[0x0;0xfbf17ebd55dfa;0xb4396c87757a8;0xfea1cf04fc5af;0xf6240d39ca127;0xfbfe68875b3e8;0xbbb8daf317099;0xea1c20ae77fec;0x7b03111c1f05b;0xaa51e171523a;0x48e66deac3e86]]);
 ((V [0xf1de25cfb41be;0xd9e788412dd0e;0x708cfcf727f03;0x9919aef9b6045;0x4f86789dc5a9f;0xf41aa7ad00bd0;0x31f57baad675d;0xbabfda90293cd;0xcd93c7910aef3;0x493a82d0e54] [0x95d3af335f78d;0x6f7083f4db9c1;0x729c67f04129d;0x26f8da386d23a;0x4cf905c41e309;0xffafca781ae9f;0x82992bb8c7bf6;0x53c8869f9958a;0x51650772ac844;0x295d395d93f]),[[0xe98eabf761cd6;0x873f98fbbb85c;0xecb832a1410c;0x991417d206496;0x52784169bdeba;0x9351f4dad8746;0x2b553c1570567;0xb1d5e73af9ff2;0x71cf4dcec9b39;0x59237aa3502];[0xe7e7cfc22901;0xe8757f4ff1f91;0xf4c6d87c2fa44;0xaae91ac6d7290;0x6794ccaa469cf;0x2345ca5d04b75;0xcaa7fda319589;0x1591259ee3245;0x9652628bc836a;0x267310091b];[0x0;0x39764c6b2be77;0xcdb3295967883;0xa3efd4bf059f9;0x687c8bee84faf;0x58419933c4128;0x937007b4ebb30;0x95d2608a0ff6d;0x5bffec6e5d8d6;0x883564049c80c;0xe778b7eac4];[0x0;0x4be5911100b48;0xbc601738b65d;0x3fc3bab36fa2c;0x4e6701861be68;0x7b4474b3223e8;0xda4187bc38b55;0xa7b70fc3345ef;0xc5d95d840b194;0xda783857b9fde;0x87a95b61888];[0x1;0x18bfe49fa2aa4;0x89fd11bee39b7;0x3a73a1c4ece40;0xdf83071705167;0x4fe0541d354d0;0x3e41ca332a97f;0x52a95fa5336b3;0xa5cd3e41ab89d;0xac96819b54084;0x11b0e3b011b9];[0x0;0x4a32249636338;0xe532b90daf92e;0xe149650bcbda;0xabb6b7b2e2e3;0x9824425b74f9c;0x4ff585d7425ca;0xc1ccbeabf5858;0x3f87b0e2a0cd2;0x3e9244263cc6e;0xb165738c03d62]]);
 ((V [0xb5f0a1bf37346;0xe8e3fcb80d304;0x48deefe12a999;0xb3aa452ab8972;0x7e6daa9b8e295;0xca79e254668ed;0x68eed5386ef2f;0xc29aeb5be13d5;0x9db8f0781d513;0x175acd8d06b] [0x663e77c9075fb;0x5f3dd67469890;0xe8f52c246ebad;0xebced9f08a6e4;0x6c3012afc39f2;0x789fca27c9319;0x239fcc8b8474f;0x56c28d1732436;0x57a7e10f8055b;0x5ba1f529e47]),[[0xdb8bbac120172;0x92e6441923811;0xe21bc132e71d1;0xa839860bd8658;0x5922a35622175;0x7e99bf86ee619;0x1469ebd9a52e;0x46642196c99ad;0x487616c48f857;0x566214c8f44];[0xb0387729edc8b;0x6c1d3f141ca84;0x3fb85f473da18;0xadf43edbf7cc1;0xce6d9c1e7fd25;0x9dd0a4efab1ea;0xa975a89fcc9ef;0x9f342b9adfd18;0x35404a750dc85;0x725db4b4983];[0x1;0x93cb5745d7ec4;0x3f9b458ffb661;0xc5b76ff37dae4;0xb27689b0b086;0xd20aaa91c880f;0x58654d9ec6220;0x873a1478eebd6;0x8d3dfbb83d7cf;0x98bec87f2f87b;0xbad69173d7d];[0x1;0xd667fb32c3854;0x238d4cf5a488e;0x319af7113ed06;0x9f819de9ba7da;0x2a0e6ea34d7;0x8e719eb036f93;0xd61de617b1346;0xadeb7fa2c6c85;0x7dae957e1ea39;0x2765d92f6f7f];[0x1;0x208cb84dd5084;0xa6a4759a4604c;0x651b399fc37e9;0xc54de93bde2e1;0x384a588dbaf85;0xa4deabdd68df;0x2d9c4ee07cac9;0xdece88e21714d;0x4f56329fb9d67;0x119538f47c35];[0x0;0xae10278beeb02;0xae5b237643906;0x11033498508ef;0xe2fc4f0e23425;0x3e52a4ebe2f00;0xa4b1f1bcef8fe;0x4db14647ae873;0x873876f3d885d;0xa4d8bff970387;0xac3235cecc2f0]]);
 ((V [0xe1b62f048c201;0x96c7e125c7ed2;0xb77e905b0eebe;0x77b337d7e1b33;0xd1d6a93698b6;0xd3b5d4e6089a5;0x3a3fcddccede;0x5953975be9dcd;0x8b32828c55d0f;0x44a8ba4e596] [0xf43ecf190af5e;0xb4522e26e42b0;0x3d93bd46089ea;0x490f321e9ed8;0x191bee774d99e;0x4b89628bd4acb;0x2d5437cd2b0d0;0xd014b5375bd72;0xb6ed648153a5;0x6352eb0580e]),[[0xc2934bada4045;0x8f1451ea4b70f;0x4bf27263fbedc;0x153cedd221ed9;0xc8e3333148d0e;0x7015fbac715b6;0xa64ffc1de69e4;0xdd2407f3a2522;0xb315d35cfa765;0x45ce26ee4a7];[0xcf35e24f81bb7;0x8199a5468a71f;0x17c10510957c6;0x2077e3ccb6b72;0x60dc46d0eac42;0x6a8f70f6738cd;0xd239aecb7b06f;0x94d274bcbe8e6;0x178fcf1a9c1c3;0x65b2bc7fa11];[0x1;0x5df36a8cdbae4;0x6d3d1e23ba843;0x3c0903e1f609;0xbd3c88287e86b;0x4dfea8046ff19;0x6eb1d322a0901;0x2148123142d05;0x789ceb5fb4bfc;0x5cc99665f6c4;0xc72296b63b5];[0x1;0x6f9183052396e;0x4bffca96f8d35;0x66287ad7450d2;0xe7b1ea0cef990;0x27b9218e2bdfb;0x4aabdc98e575f;0x4008a54599d0f;0x34de6727f16c8;0x69ae3138b7de0;0x1fe3ea5a226c];[0x1;0x5192cfe2eee89;0x325e10316e90b;0xf557dcfb6605a;0x4b2c619bd0f3f;0x5155b0382ca58;0xe8ce75e75a649;0x2d7e379b7a334;0xfac813c88ec68;0x50ef6c2c32758;0xc0ab1cd28a9];[0x0;0x6e6eccd536bc;0xdd9979ab77d44;0xdaac7d36b5baa;0x660e2e786d6b7;0x5d540dd57f9f8;0x7baf9d9e8d090;0xc14f507ae2a3;0x1df70cb0d5290;0x3f41aa6d32876;0x8a4b7d4a53bef]]);
 ((V [0x849f2177dba9f;0x1bb23b03ece10;0x61c1342455445;0xfae4fe82a0e50;0x528fe98663b6a;0xfa4f996d82ca6;0xbfa7520712c5d;0x12a63074b9954;0x719f9b93398af;0x5eeda846fd7] [0x1ccc935e69b8c;0xc0bc45f8a50bf;0xf77227834bb0f;0xca784d1007829;0x4d44733d7131e;0x6d04a99ce2a81;0xd52674cd23b2;0x6781fb7da73e1;0x300cdb7ca943e;0x57717bd3881]),[[0x8b78cc1107216;0x6c76a1c856662;0x4b8967b606baf;0xefbd7d4c3b82d;0xd85f3fc04c04b;0xa3e4510b3a5f0;0x585c348b548a3;0x6d17d9823fbc1;0xb74e11cb57279;0x151ac81682e];[0x68d8f0054c87c;0x3e5d2dda5c4d9;0x75ae62718bb2d;0x68ec6e50bb393;0xc34b7e115d4fc;0x48612a37db998;0x699a099c686a4;0x4bdd32769484e;0xf0f38d13b29be;0x4bfabb450c0];[0x1;0x64b89e9e9e571;0x9ce61f812c334;0x8a21d939249fb;0x1bfe15867b9a0;0x5e2ae8d8a9eda;0x6c30f414cccb6;0xc6a4d57fe2ab1;0xc4d1fd9c47bea;0x849732efe9c50;0x7321522cbc4];[0x1;0x73226c64355a8;0x72cdf72e848b7;0xe6543a122e10e;0xb1b1979d63c5a;0xf1a789780c52e;0x889158ad335f9;0xf8d02c0d6d1f3;0x33a4a6f983915;0x470245d0b362d;0x1a71f9e4af1b];[0x1;0x70b72fe8b51a4;0xdc7e52102456a;0xbe3238bd12fff;0xc076b9a1afe08;0xae792f16b3363;0xbaa140cec7581;0x2657d3346d76;0x75c03feb29988;0x317d6885d4b3;0x1cd036a857bb];[0x0;0x3a77241679c6a;0xbe72105d79d32;0xe97692e9fa68b;0xa3cf54de38e2d;0x18355f021390b;0xc39b0bdd59f77;0x40765876b0b84;0x8dc191caebebd;0x65c8c3fca440d;0x28d0cd594ed3f]]);
 ((V [0x8d164108cb9fe;0x3df3c9508b4b1;0x8a1ca0fedf807;0xf67069086c037;0x27c22e26b5e8c;0x272511794978b;0x52e79b16d1666;0x9a0f60ff6943d;0xaab50665f0b6;0x2bbcc40b14] [0xbdca09cecacf9;0xa283d4d2fab8e;0x9611c88b0e05;0xee0c5f06484df;0xa45911e9f6ccb;0xa7aaefd4a5852;0x8ee21bcc38990;0x5a1efb95b52f2;0xc3d0e38305191;0x7e92cc53e67]),[[0xf26fe6ee4c281;0x88be6d97f9d37;0xf861cffb2f9c8;0x71b6a635f662f;0x6e06160617746;0xd4c6b860f6ec2;0x813a1b8f57a9f;0xf0e126241846e;0x78c88e516c3b;0x36e92048a09];[0x4c822e651bb21;0x9e1a1a98a9cf0;0x6cbccf6e32ca4;0x6416e4c44dbc2;0x35f5969534dfc;0x73a2a89577fb0;0xd6555786fa50;0x1e2891e9713c8;0xb8d5d6f019aca;0xa957bedfcb];[0x0;0xba23bb700bbcf;0x20ae7637ec27d;0xbca1fc8800f1a;0xdf1f0bf7bbfce;0x505561ad682b8;0xecd992215a628;0x4bee3483ea056;0xd2585a445eea3;0xcf12fef1f9689;0x313bd08e4ee];[0x0;0xbccb5941a9a68;0x5fa87ca9023da;0xd96570c4998fe;0x45db04ffc7ea;0xa214b054d361c;0x84a302d06598d;0x4bde4475d6a9a;0x1f27f3ae5cd06;0xc499cb9267860;0xb855e29557];[0x1;0xf10f0e2419671;0x51356d8c3b2c4;0x95fe438632447;0xcdb5be7545535;0x4c66719996b92;0x2257f58d198c8;0xabb415075407e;0x7683d1356feb5;0x6cff25709769a;0x1699fddc8805];[0x0;0x520b86f7851f0;0xe1d71dba0e5eb;0x8bbd536e6eb78;0x10330abe16b94;0x271902c2cee13;0xaf3da90905649;0x7f816f9a12c8f;0x6394b92f620b8;0x4f8ebeb298845;0x6c84ae1410d6b]]);
 ((V [0x62649a785e0ee;0xa842a23e7e42c;0x5667617693ed7;0x1dd0c7046367f;0xb20b60d2d0fd;0xb7a43bc20d6d8;0x6f6baf592de87;0x35ddf2e2d7594;0x28f4562016c69;0x61468afc1a1] [0x3d5291598b542;0x14ccacb5db414;0x3fd64b46edf48;0x4ce56a1393c6;0xe3eaed2b1d027;0x7ece96dd052df;0xb4b0922cba7d0;0x5bb3909e370d0;0x77c07ce5cb9f9;0x404f982dde7]),[[0x8796ef20318a2;0x6307e7208d32b;0xe41b5252dd07f;0xed4aa231d32c6;0x3c29737ef6a47;0xb9941e3139b94;0xf0faf7466e2aa;0xcac040fa0eb8b;0x5098d35eb9f81;0x32f998e9a82];[0x78e19cbe6fd31;0x614f242c675a0;0xb38e52c92b8c3;0xdde2f8fc4bd86;0xcfefbda3f4ed3;0x9547b73c072c1;0x3150c270ad904;0xd1ba1b860e376;0x2ba839e6487b;0x5deb3eebe68];[0x1;0xb3532a21e1dc4;0x77660a0752443;0x1edb4110d762b;0x80a1ef1d60921;0x3096b78f327f3;0x6882ba17b4463;0x1539663ae8e3c;0x580a8bd099db;0x21357ac69fd63;0xbbc78bedb48];[0x1;0x73d11db8d1ee4;0x20f72ee9a4f5;0x77eacf2497b44;0x218ce82352339;0xa3bfb5af324b2;0x3e98d92c0dcd3;0x6ff53cd7d6511;0xab5ac5474191a;0x17de83e8c64ed;0x1ceb32858244];[0x1;0xe97d6e252a444;0xb57861e7162cf;0x1b1541927e7a;0xb59d2fd759cf3;0x8e750d11b9855;0xac70b25c40d58;0x747c11202a4cc;0xbc1146a97d9f7;0xc0ff067ad5464;0xb92f60ceca0];[0x0;0x25ee833a51282;0xaaa83e87af6fc;0xb3b3b91c99a89;0x44895048d4099;0xde3c14ec40c91;0xcf8dc36f35c23;0x2d7ddd517b0db;0x562840c662c8c;0xd9918c42593ac;0x6482c015dcd38]]);
 ((V [0x9fd8d9ee15550;0xb0f071aded43a;0xb72d593280ab0;0x52d9d94898194;0xd419316529376;0xa0902df6f1861;0x8b421a0860bd9;0x1d6c6026fbcdc;0xfd28e18f9eb4;0x6744069fd4a] [0x977ab5c904955;0xef84699916af3;0x5a3642296f415;0xf148eb7e6bac0;0x504ab0fee448d;0x5186925cbe23a;0x19f54d1048ad2;0x41cb5614fc69;0xcbb36978cccd3;0x2dd35c72c63]),[[0x5356a65c5380;0xcc66b24e10369;0x17ac008944454;0xfce00d6b7ce00;0x425730eef0975;0xf71f4ef952c3f;0xb2377475a6c88;0xbef9ead1b190c;0x837e2b7a8fc00;0x3ff7cd607b7];[0xd9cf674f5c4b0;0xf54e9cdea7d15;0xce71a1cdea4ec;0xd98b4f9818b74;0x52322c892063b;0xdfd7c47ba5579;0x8b02be8254bdb;0x19dda2e45bec9;0x1683a19db4087;0x3e133606f79];[0x1;0x3860b0b85ef04;0xf0e12737c8017;0x3758abeaca2c5;0xffbc8271fe7f8;0x64f57d8123583;0xe5fcd12d119ee;0x5bcb8d40c5424;0x17f4eb74356d6;0x8a243a3f7ddc6;0x32395a873cf];[0x1;0xc04bc84a22e00;0x946789a786023;0x81db5b6883a68;0x936916973282c;0x9f89e32f82f8f;0xf36ebe6c7e08f;0x2f51c03fb7f96;0x3c61f85ade866;0xb46e01b67cca8;0x1342be8cd6e7];[0x1;0x33c0a2dd84000;0x53ce348abc6eb;0xbb1b4570be590;0x49609bcdffd04;0xe97076cfcb422;0x6e4eba24b749a;0x8e01e02f980de;0x644d8ec4f0a5f;0xe0835b0ee4222;0x233aa6b492e1];[0x0;0x9c2fa01245a80;0x43bd4d91d1bd8;0xc23af8532326f;0x78ca7d270235c;0xb0af9ca3ffffe;0x37bc2b207995c;0x7eb26b07f9f15;0xf8f79b7d83e2b;0x34d426b2a5036;0x7f504e497a7ad]]);
 ((V [0xb500b58ff6484;0x7b8e46b8a25fd;0x1ddf25c7bb989;0x8061071a8f120;0xf587bd0900a28;0x49d4b76495b15;0xfdc919f611a25;0x112896a36830b;0x5a88f21e47948;0x3452aa6eb33] [0xab642c42f2b9a;0x72d1e5ce98ac8;0xbb429cd3ab048;0x4c62473c3d621;0xcd04dec784ea2;0xa96f41e3be41a;0xafabcb2d774a2;0x9386311fa82c5;0x5c97efa5e3368;0x77db9ea2281]),[[0x96bd1f1a9f237;0x76ebb7dfbcc72;0x546493b00a8ae;0x395e31e0c7de2;0x3f33602cfee57;0xdeec525537503;0xabf6e256d784e;0xce8bc8949cd1;0xeeb9bbf3e8787;0x429a40a27ce];[0x97a226e758d32;0x1077239def335;0x396129c113cc;0xaa5bf2a1abd77;0x621b4886298a9;0x1655fa960cfe9;0x9b98d99aa96f8;0x2b80f3efa9f43;0xbcbb248d2822a;0x41c2b79e489];[0x1;0x324d951202900;0xe7eb6b6a030f7;0xc3cef2b724aa2;0x1387548426f5;0xe9f2f51857854;0xef5c9e2d9c814;0x3ec2d93fae250;0xba85c243809be;0xad167124b6089;0x3035d06c4cd];[0x1;0x216e6a2c45726;0x293d215880128;0x58c3d79a87c63;0xe9c2481809395;0xcc6ae00af8a29;0xe723952c38f9e;0x48d398fde40f8;0x6fc1d3c921385;0x1c466a128f516;0x15adfe3812e2];[0x1;0x9bd61a0dde441;0xd1b5461f7110f;0x16c89e95d3169;0x1583f8d135c1f;0x65bc3df60bfdc;0xa2d8fa591a4e4;0xbd81f4b04d93a;0xf88689d48d713;0x8f8ae9bb9fb38;0x1e30da2d1807];[0x0;0x3a14546f5cba3;0x4528ef2d48b72;0x30d093b5e1518;0x758fded5b5330;0x3bccb661efc9c;0x50c1c4a3dc336;0x9ce3b4a933f58;0x9e30a76eea02a;0x2cd303dc95f94;0x84463f671817c]]);
 ((V [0xcee2c6a3e3900;0x8f17158aaf39;0x73a9d0ea4cf0c;0x7eabfef46987a;0xe2a1bf17f1dbc;0xd9feae06df099;0xccb6293fc01fb;0xf61f88145b288;0x485328ce4d298;0x15232c5a4b3] [0x9d57104ed7e23;0x4e6aff1f0ff08;0xabe5c30c0921a;0x64119e3e5d638;0xb32b48b6e9840;0x9ccf97893e449;0xf2c41407dd1e8;0x41b5dd46d5466;0xde5bae4af3f65;0x771c9d357c5]),[[0xaa3562b0d8fe3;0x4068a98a5416c;0xa9d23ed2ff2b4;0xcdb2c979e2107;0x754f2f77deda1;0xe68b5898816ac;0x643f72e57828b;0xca9ecde80f217;0xe8e282ab4a80c;0x7b9776b9ce5];[0x2c4457fae68bb;0xcdd8a02a58f16;0x19c48c27254f9;0xe0b10f0e7ee42;0xaf139e8930540;0x2202a63b75a6a;0x28b1bcd2478ea;0x8f0875faacbd8;0x7027944968cc0;0x6cce92c2c7c];[0x1;0x98df2b793b10;0xe2ec1183bdb0d;0xc7c31b0f8e860;0x959c61156971e;0xb70fd3cdc2c91;0x7a50ec8fd1671;0x9c847e9f10d05;0x41a6a6aec40fa;0xe637abf61f843;0xc439c5a85d2];[0x1;0xe27388893975c;0xe108b9aae0d1b;0x579eb3660eda3;0xa73645909a2f2;0x94e0464c157c2;0xa2d0caf792f10;0xb575fd0985c4;0x985fc23f9cd48;0xc1a26afe09770;0x1a561b32ddd3];[0x1;0xc6278eacfbc39;0x63becc7be6ca3;0xba64704f1f66d;0x3b8c752666626;0x6241ebb3caeff;0x4d4ea91f7a275;0x147b63ce35b90;0xe2e76c2478cf5;0xf6a1edc5dfad9;0x843b3707be1];[0x0;0x22081a01b9297;0x3d5d243857d14;0xf9763f099f59;0x999d05d44b2ae;0xa2073b46bdd0b;0x13375b2bf1db7;0x33d981bad5c37;0x78f4ed839478b;0xdcb27ca09998e;0xf5eab0fcc2a7b]]);
 ((V [0xe13a003c7d28;0xe65d285532f97;0xfcac9971eaf4c;0x7bc9717f82b20;0xce4bef729f0d7;0xd286d1076ccd4;0xe3550057b89c4;0x967d8e171f03a;0x3d88bd98c6b42;0x3363231b0b3] [0x41604a303aaa4;0x8b3d8cc70f2c0;0xe156ab13d9ec;0xeb9bd2bf9c3a0;0x35d40db732bea;0x80aee3fe7ce2a;0x64bfc1ac7e441;0xb8e736b54d645;0x23a789a7db42a;0x37758cb64ff]),[[0x7a2cd7e79c3c9;0xa6322621e2bc9;0x391f2cad77441;0xa37f95882824c;0x3655350e90a5b;0x7bb9f11328664;0x1964e2329c567;0x1653961e2f31c;0xbd379707ce94a;0x5af5af01933];[0xbeec6a2b58edd;0x453109815f63f;0xf98ef62098122;0xe57315ef0a1ec;0xe2179e3145d06;0xb993e66f7353f;0x94c403d0da890;0x365cfb51ccdf;0x919a830a415a7;0x4d925e6bb8];[0x1;0x830ac7210000;0xa0e9e93c5a8b;0xa1db7bd17543f;0x30db4362e3ea7;0xcc6ce2a505008;0xbf4f0a105ae62;0x51e427b363ee8;0x37079bbcc675f;0x5837ce9ca5779;0x634b79585a];[0x0;0x485ff5391b96a;0x77c4a03a81f56;0x5ccf9991c1870;0x3a0d7cdcb90ba;0x7d8f0792f8f9c;0xc9903f43c2543;0xc85683f78dcc2;0xc4714df2c7cec;0x34e83ef8a6c6f;0x8c3298e9cec];[0x1;0xa296b1cc6f041;0xa235eb954987d;0x108226759a71c;0x928c99953a583;0x27376ed3bf734;0x9934f6449b16a;0x5ae1dfdc5c1d2;0x36e69225893d1;0xfb4dd070ef77f;0x7aafa1f42ad];[0x0;0xf626ca1a1b6b1;0xd2dbc5f828c1e;0xaf7d9bb99d032;0x290f2793ff419;0xd65c9af1a060d;0x905d0ecf3301c;0x9977ddcee7ca6;0x92b605d344c3c;0xc73cb480a1396;0xb4d3b05506cba]]);
 ((V [0xe74dc2deea931;0xae5b3fd2dc175;0x7f2b829fb3801;0x3c24ade4ac8df;0x2088324ce0407;0x5d7c8482b88b2;0x6b1c472074721;0xa86c5e8d0e33f;0x724320fe96f78;0x4026f8aedff] [0x7ee32c8aee2e3;0x84814fcc14818;0x1c9a92c1092a9;0x6142035b8c50;0x934e2a6bb00f5;0xab56037a83a3d;0x2f6edb84e3246;0x9695595112fa7;0xe3773cd6dbbbd;0x66e96716c33]),[[0xb58d6e34cd025;0x7a7c74af1761;0x76da3c1563641;0xed9dddabbebba;0xe1a5d5f241459;0xfac228981df82;0x77cf0f944c3d6;0x9b86475a3b0b7;0x13bc717847dfa;0x78bd54f8d18];[0x820e01b1f2c94;0xeb8a62088e1d6;0x65dcd9e808eac;0x49bfd5c642c4;0x79f907c171fbe;0x422c5f967c19b;0xbb506f50bac07;0xf677dafd9a635;0xb5c275b9932c9;0x5e034ec8402];[0x1;0x487e35c781240;0x5b4051a2fa0e6;0x3e7e6bc71b498;0xedcb669192cb;0xcfaf7b08cb6f;0xcd67d52a2194c;0x176710eefbba2;0x58ef1eca11f95;0x343b5383b26b4;0xa76550ce9bf];[0x1;0x94944ac6ab8e8;0xf49e7ee3508ce;0x1c7d2f348ec44;0x5e50ed1b5a908;0x23b44c7dd6704;0x9ea89d59ab60b;0xfd8262774951a;0xe62bbb872695e;0xd7c51c03b93a5;0x1cb7360163af];[0x1;0xb7d2281777549;0x4595709718742;0x119d5f7881cdc;0xcf2fde4847ad6;0x6f8f9530ea937;0xad7d03ce1f920;0xc7d942c11e8ff;0xf65bfe1a33def;0x83232e7d53077;0xdbf6666a3cb];[0x0;0x591fe46e80622;0x8a3ba67df0088;0x837521c6dbd0b;0xc8a41c9fd39cd;0x1bb802c205dba;0x7e261d726c130;0x12324186f8a8e;0x457468d56e160;0xd2eb8a69a8f3c;0xf0aa9ee524655]]);
 ((V [0x8b03d8e0fbf1d;0x27af7a9ab784f;0xc7feed97c83c8;0xb5d8c4d6d187d;0xe6bea1bdbf9c1;0x7c78defd4ab7f;0x958db54dd8cf7;0x47af7fb36f85b;0x706d58f509f42;0x282c434da53] [0x56869adf29c1b;0x5c54490e0fcd5;0x99b156aab0d47;0xff27bd597d700;0x458e337ba47e6;0xf7831a4566815;0x9aca981be662f;0xe5509384af8a3;0x4c164a6764f0f;0x6a3159b533b]),[[0xf07c93ad26420;0xfee32610a6775;0xac0d6b6b6feb6;0x655db96df192f;0x1c3af2264640b;0x3110df7df433;0x5c138a1aa09a5;0xf0dc7b99d602a;0x508312a4e2268;0x7fe0f700967];[0x98bf823a5a78c;0x95a6cdb52075c;0x90e60646086f6;0x4c90355b6af9b;0x9a12e8315f748;0x5f0c8e0d29916;0x4c6bb7f484725;0x21386a730f6bd;0x7774179ee90c6;0x2976a811a61];[0x1;0xb3c0428edb6d1;0x9836e3e422dca;0x4844ee9ade35c;0x8ad2286617918;0x15b90146393b0;0x5a8b88809fd3e;0xcefd43cfc312d;0x6ce2d378b84ea;0xc3ccb4a2cda69;0x32c64b96e13];[0x1;0xe80337f1624c0;0xf4d0554737182;0x1be96cbe338e5;0xb3a01cc8dccb9;0xb9f86b3812a3e;0x6692c56e770eb;0x1ddd30c07e19;0x9b6d8a085a409;0x6e8bed1cc6238;0x2b2709c22da];[0x1;0x6102ce91ec400;0xb55c70afe8a3c;0x57bbe3d1da55f;0x253b116db3093;0xcd0bf2a80c70f;0x2b1e5789c3cbf;0xbd9adcb7cba4d;0xc1743f6939434;0x783e8c5c7692c;0xd13273cf410];[0x0;0x5de55a50af9a0;0xbb2b7d3b5519e;0xa556309c1a501;0xcc2b997955ec8;0x10112eca2a33f;0x86ccb952da45;0x75f85d370dcf;0x531e847e52f23;0x23ec95de1487d;0xfeb78e5b8f5b4]]);
 ((V [0x865b0fb8a3a81;0xc3ef4dd04ceb5;0xa90fde0ca1b5a;0xd6736dd83cfae;0xb9064a048a3cf;0xcde7c5d8b0961;0x1ada9ca852094;0x925e2710f9b74;0xc563a8e6e2973;0x4909d65616f] [0xf81f84e8e5da8;0x5560eaf491be9;0x3c9f5df2f831c;0xb6c472d44fc71;0xcd458442bd92f;0xcb046bbbd1b84;0xd0990d7775e8f;0x550b3bfb40970;0x7b8a39f6706ea;0x388899bcb06]),[[0xf610dd0fd4e26;0xe63ac50ea794a;0xee48721d0e055;0x16ddc14988c5e;0xc0be377b2f802;0xdbb46b4eebf15;0xf67352fcd12d7;0x594659182f951;0xae8778a0f2c8e;0x6a5ee8f14ad];[0x492998a292cce;0xb20ac663098a6;0x7fe0fa41cfd41;0xc8b8117aa0e2f;0xf8c816fcd0405;0xe573df496ff82;0x705e502035e78;0x54f48b98699ae;0xc9b336a43e815;0x720495c8c6c];[0x1;0x32f73c3bf4239;0x5b5ba1063937b;0x7b4567f99d99f;0x2c08d9fcd74c;0xa8d83ed124750;0xb0fd81b480fd;0xba755f937e118;0x7670b25003d36;0x1c43d718724f4;0xd76d72329d9];[0x1;0x34ca3028491c4;0xc805c00d9e82d;0x263635eb40fc9;0xbe875bf7f94ab;0xa6388e0a835e0;0xdfd22f83e8f6;0x66d6e55c0512a;0x78c293482b21a;0x95e17795186c1;0x1fb9c4b2185c];[0x1;0xd5b760274964;0x581c6cc14453e;0x77cbca280422f;0x98abf6d7e6a9;0x23dd26bed83e0;0xf04bd5d8ded0c;0x9560d4fe727fe;0x76e14b16f0945;0x7cf0a57179e14;0xda5f41b3548];[0x0;0x9e6d74d4c197e;0x6c052a0d2887f;0xfd6664aebd0a9;0xca69c72e2be34;0x44b814844501b;0x99088bc32dc73;0x12898ff35a4b5;0x355b437692653;0x17ea9bdbea4ae;0xd3c76d0858b12]]);
 ((V [0xebe338134d80;0x84e6877f137d6;0xd9dd467a14303;0x5f1bc1ac5496d;0x9d12cb7e0c8ab;0x267da60248ba1;0xa69424e1ea5a3;0x463f0000aadc6;0x918247344db27;0x773d658a329] [0x57b41cb23c016;0x3fec00dda07c;0xc0e4a86b143b7;0x81e34858245d0;0xeea0204e1551d;0x27f2c344bccdc;0x680f884db16b3;0x2dd8f46dfb728;0xf80aea1134d8b;0x2d06a83df0f]),[[0xa9c0fb74eeaae;0x72dce893cf1e3;0x399750ea559ba;0x655d7f6825edc;0xe9b5ad4f69b3b;0x7f96f3a4caaa7;0x2bae104280188;0xf9ebaa044ef98;0xc9cab561642a;0x65cc74e93d3];[0x36bc09060fbb9;0xe16a602923810;0x3f00e576bda92;0x22eedf5cfe54c;0xf435d437e924;0xb741ad5ea86c;0xc247f2904a4b;0xf113d4d6c5aa4;0x172abce0c540;0x339b0d6b93c];[0x1;0xaa4b6cf5d8671;0xe8ffec1b3557b;0xd7e1c85068317;0x1a67a92270aff;0x2fe528e47d0ec;0x304f451a376d7;0x2ae609fed71b9;0x9ab410f88390c;0x509bbe78781b4;0x3d88e19b6a4];[0x1;0xef9a9875bfa60;0x6d43ed344d038;0x1fe5777c73784;0x526966ac9e5e1;0xa2638449f6289;0x6941ecf9d33d5;0x4616813abd4a3;0xbc4dd5a60cac7;0x793183c0bd1f3;0xdbb6233808a];[0x1;0xe261684599004;0x62808afd8b798;0xafda1f7d9f820;0x60ef06a621cfa;0x444ef7f2919c0;0xb3413e8e01b26;0xe59911030ebde;0x136ac4280ea8a;0x71752b343e1ef;0x1c1ac35579a5];[0x0;0x7875a6fc8be0;0xd66438aec11fe;0xe087ed31b6782;0x4c2ced4af7006;0xb6dd0117cd6ea;0x5cec36ad765ae;0x9da6c51bf6aea;0xbf15ce39a1cea;0x8256e5e610f27;0xcb0ed94810196]]);
 ((V [0xe2da49cdfca1;0xc9bf873a56c2e;0xf9ff03e19373a;0xd183384f641b0;0x27b8a53de25f7;0x99835c1d6c9;0x1889533d2f5d2;0x46c8da18f7a6d;0xafa92ff614416;0x1146afa9a91] [0x60a82ede9337;0xb25a8374b16e8;0x59c423fc1ba6c;0xe4edce3fe715a;0xe18981d7acda2;0x5945c22a850d9;0xa4e4923f2a419;0x912d9ecb25216;0xf6365720e4f4a;0x79cde2e8ede]),[[0xa2f9c91f12d7c;0x2f949eea72126;0xf592f1e9494c7;0xbebfde541e2be;0x227584b959d9;0xa2e023d1fc7e4;0x14f3769314d8c;0xe8523e43655a;0x33bfb40edbc67;0x61bde01888c];[0xe2e6ec3c3b406;0x38d93d8b047af;0x9509bacbadc62;0xaeef45752ff0a;0x4318e6c4ffa68;0x77fdd807cd20a;0x19a1b36b1cd49;0x70af6d787292d;0x66d4a9a708da4;0x4f3333477a4];[0x1;0x4a3ff2a724000;0x42cd8e52333bd;0xc762b18f250cd;0x568242208f4cb;0x59cf72538534;0xe5a67e8c035d6;0xe4e41ec2eae00;0x8d4129eb197ad;0x34ab7a3994fb1;0x2f52204ee63];[0x1;0x74cd229a4b450;0x8ba98046b79e2;0xd3280a571d7fb;0x19a31575ff296;0x4cdacb36bd26c;0xa345a8d74cf41;0xe9833896bb6ef;0xd86ae5b32bab5;0x83b7728dedb99;0x1966f875d95e];[0x1;0xf835108e7ab10;0xc478329f83ad4;0xbdd4e8b7ce790;0x79c8c3a5d0e52;0x3a1cffa383724;0x68f059ff56e;0x627e182b024a6;0xe0071d6853105;0x8aae2ae2bfa75;0x1b4e0142d9c8];[0x0;0x7005da71fb0b8;0xa23fb23d7f365;0xa1799421731d1;0x2059ac941d80f;0x6edaffdb9af32;0x22bdc0b735d79;0x298ee93ff256e;0x5dd8cae955151;0x6b28ad79d547f;0xc2ddb1317c509]]);
 ((V [0xd095ed8b954e3;0x5df714f533d96;0x2dc1605cf3d76;0xa92459ac87d7d;0xd8fc488891825;0x59ba953932962;0xb7e21770b92bb;0x7d674fcbabca1;0x3f9bb4f8d8dab;0x492be8ff764] [0x67de7bd734abf;0x2b8f1a36cbc58;0x4c67d08cb617c;0x537763b2f9666;0x632c5269abdc8;0x2866a81804c14;0xf11bb9c0c1d2c;0xb59b39dd6118;0x7bcf858c6f594;0x38ae307a1a2]),[[0xb082e8a8076a4;0xeadc266c6a630;0xa522eda85f70e;0xc465d7361675b;0x78f252ac96b6;0xbeb8248458964;0xda177f0baf8f2;0xef649caf7036f;0x9cb6487897b04;0x1a54bd7b569];[0x57b038dce5117;0xa386fa80a2b3;0xf5ea18fecb60b;0x176a8e7935793;0xa35fbe4c730d0;0x643f998c7dcb4;0xeb85c8ea3e9e9;0xaa9b3c722fcf5;0xd3f96af44c6cc;0x6b132258840];[0x1;0x163fb546c0ab1;0x6d7e4f6bf6d08;0x2349d23d75600;0x743a2e619694b;0xbbe0672d5c696;0x6e00c808d6e09;0x2327c662491cb;0xbe6b893412741;0xb93d5121b834c;0xd3d156fee48];[0x1;0x6d8a6a204def8;0x676c242ebdd23;0x49b4e1ae6d969;0xcc75d1c6cfb2a;0x46f0d0381ea3f;0x71f077b24a9d4;0xab679ad5ae78a;0x2f44c013f799;0x4a0706292bc05;0x25055e30be75];[0x1;0x1314478b1a010;0x9371463571a12;0x229800645672;0xefb7cb3f93331;0x220452ed27d92;0x8f63c431cd18a;0x416563e46102d;0x8d0e04fff43eb;0x506affacf45b5;0xd207eb91ab6];[0x0;0xfe1c04dbfbc6c;0x655dab2c53b4c;0xe478bb8a1d7e9;0xbf9d8a414b005;0xae369af087752;0xcb76c96795383;0x781d8b403118f;0xcd94686a6cf87;0x86845165737a5;0x335357fc91194]]);
 ((V [0xae829d9cb9ade;0x1d97f840a452a;0x1725b7a9566da;0x72fab65ff2c40;0x880aac3bbcea9;0x11e4d712f4577;0xa7910c0e8397d;0x8c0d27e0071f8;0x4ba9278624452;0xf3610a938e] [0xcc091d7c10e81;0xa2a29ee16905f;0x2472ca67a8b4a;0x8e14b6a662dc4;0x72953e1b23acf;0x15b3afb626575;0x792bb20faf07;0x3b54b705865fe;0xaf2491c2a3d06;0x542a77437c7]),[[0x56d9309695dc;0x7b2cde4e249fa;0x5bd9ec78d1c12;0x42c83dba0f3b0;0x2a3298a4d902b;0xad267ec6349af;0x60c27d2de22ad;0x3a45be0ce6670;0xe9fc183df4a94;0x4899715bf6b];[0x748e0153426c6;0xa223dc2848c05;0x84cac96f2e3c;0x5ebddbcdb2cab;0x1d726e8d2c942;0x2f32188eaf384;0x504d7979abdb9;0x8e5f915e5c682;0x8c1608c789592;0x36995e82d49];[0x1;0x4d08eb6853a39;0x33958757f0e1f;0xccad3a1896c05;0xeb6aa1da3608d;0xa63f869d36a75;0x1c99814545cb5;0x8fc67a79e8d77;0x86eed36ec629d;0x879ab9af6c335;0x435e9832128];[0x1;0xa5b358ee455c8;0x42648919a4254;0x33e00d53b5810;0xa0d847b59662a;0xbc0ce4ff78efd;0xc43d6b6c7e7f0;0xe090ba0be596f;0x79c63f2be4f6a;0x66bef698e09eb;0x1074c5bb6ba7];[0x1;0xd17c93d361c10;0xf1f378fc34a7e;0x50cac24cca41a;0xca24729cb29de;0xc92694e3872de;0x3f018d6e33c5d;0x12ccac079af5e;0x5fdc5b01ca190;0x466e74b3da3ad;0x119ee6dd7710];[0x0;0xa74e819706b50;0xcb70e8b0059e9;0xb41310207ae3e;0x6a0791220a066;0xded688fe3e410;0x346298ae52a55;0x6a042fa6e9dce;0x9cfccd8ec440c;0x2702e68fcbe56;0x9082aa9eb00dd]]);
 ((V [0x7c0f44ced7d99;0x9b3d08b4da483;0xaf298926ec381;0x3d016349b032b;0x3c0b24c7d5512;0x1d70a6dbc6c7d;0xbff65f34b995d;0xa163fe314720b;0x92bb8d330958d;0x74d863e9da6] [0xa7f5b1a759d65;0x8a98457cebe2;0x83b5a6420d9f6;0x8198f4787c922;0x9a41aabf58b71;0x6a379c35d97bf;0xe4aa7b733c4a;0x9db42cc2ec748;0x33932bad3e4cd;0x49eb33c669]),[[0xa366fc0343695;0x8f83a9ae7f2a7;0xb497a8435d788;0x406feb42d756a;0xbae5db3e5dd06;0xd7d064cbe86b2;0xa632b0e3fcbe9;0xdc6a820b9b1a0;0xfc3ccd1f2cc61;0x6c8f2d49d40];[0x89e702fcdb46c;0x5a848e7a5672d;0x6ea837e49bb1c;0xf8d3117470852;0xdf6b61947192f;0x4cc367b307f89;0x80e9f71d23dbb;0x83cf0800e62ed;0x4ac5fddef5189;0x3ad326c2e00];[0x1;0xd25641d359644;0xad6162fb63f5c;0x5c61b21c74196;0x8ab50bf6d0843;0xf10fd1a7336f4;0x200c96d4a2adc;0xb0dff36512b4c;0xb17e933e40643;0x8e167827034d;0x73d78ac805c];[0x1;0x8c1e6fdb7ea8a;0xa5c3440a5654a;0x95da20e8ef3dc;0x207a04f3054f4;0x4ee49b299cd44;0xa81c7daf61e;0x3837e0c4f26af;0xa51d03abfdde3;0x58babcb21c012;0xd22ef4ddf01];[0x1;0xaf3310c2dbca9;0x922c3301770d6;0x512dc0b85778f;0xd204c75a372d6;0xc7c6dada08443;0xc2ffcfbe810af;0x8a397466a5390;0xecc1a27fd015d;0xec06810ffd539;0xca76cde4c18];[0x0;0x12bfdb1f0de7c;0x621a45875d252;0xfdbb8e44c034f;0xa38f12d6e9ce;0x621abdfca381d;0xace9c9994eb20;0x7f1bb46041eb6;0xc4263625aec61;0x54304dd747e82;0xd88324c664f2c]]);
 ((V [0x38cfbfd1e988d;0x79e941bff381c;0x30338f7e334e3;0x9c8d018bc6e5e;0x3a9272e052e1c;0xa41873a72768d;0x7924f9c7ae674;0xca14783564b0;0xef0b088671b27;0x5f307e00362] [0xd660fe39cecdf;0x352a187befeb6;0x619e2c328c190;0xdb2251de8a063;0x31f150d982a97;0xc66618993cf98;0x5d0422be84210;0x85684b1605323;0xdbba1418f997b;0x3d0b2930c54]),[[0x2ae400dddd010;0xf7cdf67fe3c92;0x4b73ac5b20ccb;0xac21f4568df24;0x10c81212467f5;0x7817005b1f3e6;0x661edee02bc2f;0x75853f7daf7aa;0xec3c1edbe195e;0x376745cf41e];[0xc8eada838d7c4;0xc8079f5707516;0x689df9299d6ce;0x88b747f59f4fa;0xd4b984bc9dd8e;0xa8024f4b9f55b;0xfe0d3d1ee6d16;0xb9d55a5aa4eba;0xaeb73890442cd;0x4175033b612];[0x1;0xa717d947137e1;0xcfc974d6537c8;0x1c5739d72a665;0xb60991c628f0b;0x6eb823c457567;0x81ff2f5bd796e;0x616d078262c6a;0xa3660756dea99;0x8ab9b38440baa;0x1840638d633];[0x1;0x8948f2193f2a0;0xb89bc2ef79c09;0x47769af0cb994;0x4c41a5eaec7d;0x1f598a171eeaf;0xeca08bc544be;0x5a567d4da6dc6;0xfd247055438ad;0xaaa55a76a2cb5;0x184be3ce9da5];[0x1;0xc202676bb7100;0x911f22b3e6e00;0xa5593b0d7a581;0x445d6c458d60b;0x890451dde2680;0x54565058c816e;0x7dd3755ec7603;0x9d97cbafadd49;0x88119dbe21906;0x279c7785739b];[0x0;0x18c821449cb50;0xdaa2fbb39f57a;0x6ff2446dea794;0xffa74e8a376cf;0x376028b7e9728;0x3676d629f9444;0x5ec57d8c6a581;0x502d0064bb99d;0x4f49c376d1c1a;0x6e8bfec92dc0e]]);
 ((V [0x24d6cce6e0330;0xb23eb3fd53dab;0xb604c568f8f65;0x960e5072539b6;0x15352f0775c64;0xf111619208897;0xf60f5d42eb821;0x4751bb7828dba;0x2ea4d0a69633a;0x6fb7df98e63] [0xbcd7ff948257c;0x7c259558da236;0xfbacace0cee59;0x1269c3ac14e29;0x7d9cb73f02968;0x27b04d7474e82;0x1aebb7b37d162;0x2521367c53cdb;0x901b4f21caed1;0x5e665e0baf]),[[0x27e01f9397d7a;0x58fa120172346;0xe0ea5798ce96;0xfaaa45ca0f26c;0xe37cb81f6d734;0x63b8d89ddc138;0xdd4a3914673bc;0x263b6f9ec00cc;0xe7871b714821e;0x5c33788ece4];[0x3b16d5b698fcb;0x536bd2ab4dfd4;0x2421d7b13e628;0x1efbc2eef5011;0x2a038bf4d24d9;0x3494f8347abc2;0x7a0b043215cd2;0x7741d0d6ef5cf;0xe8a14b01626d1;0x1bf1f2b4213];[0x0;0x6e3faa34bff67;0xa633912e34de1;0x47a4ace10bf16;0xbc2ea5b129b79;0xb07fb86184657;0x6ae073160ec1;0x9e7a4a1d7a82b;0x198a1a4b061a6;0x1a6fdaf7e44d6;0xee627ff0a2];[0x1;0x255d241c833cc;0xfead473b6a12f;0x672169b00dde5;0x9e1bf69d7e8ea;0x335a7a544b234;0x11b309a80c8d5;0xc9fe9ae0e404f;0xa19127791e021;0x4a99ab76d4508;0x4fba8d20b63];[0x1;0xd8cc6724a31e4;0x6a69cffdb5e;0xf7ce0faf7c578;0xc5b7112451ffa;0x2160dba737390;0xbd87a9d4ea14;0x6aa024e8c8262;0xcf7cb27be54de;0x8018a982e9c4f;0x219c7a532d93];[0x0;0x210476ef11448;0x7971e369f809;0x41bf79ef54455;0x207b6eac7f82f;0xf77eafc3416a2;0x885562d418c03;0x7e30beaa755c8;0x56aa7cb5689a4;0x576afb98df028;0xb8315984606d0]])]
 [[0x87dac6f0bfabc;0xd94ed98b51bcd;0x9022920d5bc28;0xdd5a7e1bf209a;0x7623e20122845;0x12f636884089d;0x879e2737d76cd;0x1e90edff2b65d;0x31c58bf421fea;0x15f720bd1da];[0x73873600421ae;0x823c3b6987853;0x44baa92190471;0x4612fac9d0329;0x7c8f148de5e95;0xc284af3782b6f;0x9ecef2196c99f;0x51974753cbf59;0xce0c9da256345;0x42e0ecd0f0b];[0x1;0x7e71747851900;0x45ba9efdad0d6;0xf1be29dfffe41;0x35651e182969d;0x27ac2cb6a50f9;0x5f3d1fc5e329d;0x90c99a98ee7bb;0x4e51698629deb;0xfc0e262a24394;0x243fe9b1d26];[0x1;0x818d865f28c20;0x4e114193233e3;0x67cd22340af12;0x93f92d172cb1a;0xb9daa7f8afad0;0xa8bee15195480;0xe3b9ecede3c58;0xfc16dc82b4bd3;0x14e7236cfe1cd;0x18f3f2b4215b];[0x1;0x2986d46413110;0x89f10617db018;0xb22760a0f3f45;0x932685ca93ce3;0x1e26506949225;0xe9889769fe5fd;0x464be9bfa7dfa;0xaf3b94740c540;0x47816b589e1ab;0x2a3f3eaa3bcc];[0x0;0xb21426f8963a8;0x504156ecb3908;0x82c9f723c5df7;0x9cc3e6d79504a;0x67e5f70fc1199;0x1671201c8516;0xb745b0cda290d;0xa5a8f19478d7b;0xa2b5ec4e423aa;0x2bd75a935de75]].
Definition wit_512B_64_7 : colwit ipt wit := mk_colwit (V [0x4d8d78498192b;0x4d80c836482ed;0x2e59ea660fb4d;0x31eab67b50230;0x68eea0fce88dc;0x43053e4b7d1b8;0xbec0f85fd7f3b;0x7a5bda43dbc43;0xc650752c1176a;0x57b0d9d45be] [0x99e3fe54b68f1;0x221f8ef40cdb4;0xbbc210999c08c;0x2e1e9f5aac7a8;0x142d6f59c4b68;0x703d6cf8dee56;0x7f604d5939452;0x2160d62cc6586;0x4aadb6b47316e;0x49dd7304f14])
 [[0x9085fd1b282f1;0x85aee2095cc09;0x9383587329623;0xe24b7971e6487;0xa8d0fbc06b40e;0x98047709a1ad;0x126d8beb3ff97;0xefceb2dac08e4;0x546b800f22021;0xdc19dafbf3];[0x6f3ee86aad6e7;0xc6933f0e7f24a;0x893e313d8975f;0x937e2f45567fb;0x3eee27037191a;0xb516ca5847d68;0x8829f4feb2cd0;0xcca6f29641505;0x5f0615c1584ea;0x7d3d8a09fe2];[0x1;0xdf0db2a1294e9;0x7397b12284771;0x7525029aed273;0x371dafbd533c0;0x59d13958252e7;0x5756d720cbc06;0xbbfb84a8bbed;0x956e28e70a197;0x32d6921d3aadf;0x9095b8ae3a4];[0x1;0xee24202d5a34e;0xd1e68f949c06d;0x3668fa03ff795;0x811be109691df;0x2b7aa70c933ab;0x1bddfa56197af;0x135ce3e4ce8f6;0x2d83265d16639;0x760d56982e260;0x2ebf9afb421d];[0x1;0x1d85061302a51;0x269f906afdbe5;0x674cf90f1f818;0x54b8bf46ced5d;0xac094b217c810;0xa60f6beca1692;0x80ad81cf2aadd;0x7dfd035b452e4;0x40083b5664124;0x27f99faffe4a];[0x0;0xbf0219ce54e27;0xfe5ecb58ea204;0x6461778744f88;0x22affaccebfa4;0xa61afa2d824c6;0xecf5a4c861afd;0x37ecc3466162b;0x4c93884a92b76;0x4900a483cb456;0x1ae01625fdf33]]
 [[[0xa9650b48b23a2;0x1c2477e274873;0xa7c9c98918e31;0xf7540ea5f0d6c;0xad273fa34faad;0x15169de3de890;0x8dcbdac41ab8d;0x3337985aa9df5;0x35fda716b8047;0x5a50da62b7e];[0x1;0x3c57fc7b0d94a;0xcfd0845a898fa;0x844954bd86ca1;0x19acc6c8295bf;0xd3f5dba58f731;0xd9f7179007463;0x907f848072d1c;0x49307d32069b1;0x2ee0f653f03e3;0x4c8bb903bd9c8;0x1];[0x1;0xc80fb6d7cd044;0x17d2e93f4b0ce;0x410d9be76b995;0xf46cf3618a123;0x7b562b7a11b4d;0xa2688349a2156;0xe97f9273536ed;0x53a838312613f;0x6e30b179468ec;0x19a0f83f0408];[0x0;0x844ac47db5262;0x6552a7afa024a;0x8e02318744b78;0x173185b7fa979;0xe8c0996d86680;0x88d25c9db64b4;0x981f7ae22cdba;0xe1cf3a9161751;0x9155658deccb8;0xb4ce202943357]];
 [[0xceb3c353e762b;0xb1ba7dad2738a;0xf352aaeed257;0x71347fd9a5455;0x4199750da6c06;0xd2b347f41816a;0xc0faa6957def0;0xbd67aed6effa0;0x4936796736337;0x2685fa07080];[0x1;0x6774d002d53e7;0xfaf3fd967e36b;0xf68235e60fab1;0xce23eec0537c2;0xeb9dfea2c962c;0xae55f98bfe9fd;0xa918de74c19f3;0x1a87c6eb765d3;0xf97d7ccd4b2fc;0xb40811d163a50;0x1];[0x1;0xda574df1f6d29;0xf4050da263fd0;0x1d4886e959496;0xef23549d156f1;0x289b7056f801;0x1172a4922486a;0x70a79b03423f3;0x9d073144419e9;0x1d1b907dbd96d;0x1b19be596d75];[0x0;0x5161dbe95e0ef;0xc89d54d126263;0x5b2a665f0562;0x64af47cedbc80;0xa39ca2c4e5952;0x8cb991d161e77;0xfe4e977d9488b;0xbad26e2c1f917;0x912a5d4ec4e9e;0x4c2efab9c3c33]];
 [[0x96da598fad166;0xbd9883303d321;0x8cd669b2b7ba0;0xba903434f2bfe;0x4a9501d112a3;0x25e7efef422cc;0x639340628b412;0xb67208a59cfcf;0xddfc1d5b79e88;0x692c0ced423];[0x1;0x463cff4f959d6;0x5dfc1a7ab32dc;0x50426d6da47f7;0xdaecc3614d7d6;0x6cc0035eacff0;0xfda7e677cfe38;0x726b7d1a50855;0xbaf9e1b4e95d8;0x3b2761d1808e3;0x2e385b35068bd;0x1];[0x1;0x7fc534a51e064;0x7d71c08e3a277;0xbf61cdcca7bdc;0xef61327acab26;0x298210c4b80c2;0xd25bbb1f57fa6;0xc22221e9702bb;0xa0be1eda0712b;0x77c8ebbc0d166;0x214af04d6824];[0x0;0xad7774d0d1c50;0xb76b3e1787e55;0xa627e9a7afe13;0xc4da5714baa2a;0x6b63fa07efd8c;0xcc8f3eefa965a;0x43893967bb47c;0x68a91dc708ea5;0xb14f04ec2c4c8;0xd17b7de4e4943]];
 [[0x6a070d029e185;0x5703f30247d29;0xff92b7985f0d6;0xf140b121218f5;0x33eddf6cc906e;0x7c31451c15d92;0x9b01150aa71f3;0xc05097a626e6b;0xde7726eb9a012;0x43003c7071d];[0x1;0xb07781272957a;0xb84210582fc43;0xc714b992771b2;0x22c53dede208c;0x96b88fadcfb76;0x851cd235d5792;0x70a64c66f2745;0x5173475c2173c;0xa92d96d00480b;0x7acfaabb92e18;0x1];[0x1;0x6868b14706309;0xa1bd6d8112fe8;0xab8eb8bab89df;0x8e4119db21a1f;0x6cd2ba54ae6c2;0xdd774f7e792f6;0xc922f0a8f05d2;0x16fe5eca19bca;0x600f8885d7880;0x191a75897095];[0x0;0x4edf8ee0e470d;0x9cf4167b2c047;0xaa5bae5ca981e;0xcecad257670be;0xbfaaef5442e00;0xab1a13d0c71a8;0x3549fab4f97b2;0x1ee741e9bf118;0x36044dca85920;0x85291e1e8ad5f]];
 [[0x54b25d1935894;0x2f0fc63495289;0x759c8e63a94bf;0x5bcf7022760ef;0xaf59fe119aa1d;0xc6e8b0dc2668b;0x450cacc1986c;0x532dfc35fb93b;0xe334f0aa34fcf;0xafb4c3479e];[0x1;0x25944cac80c8;0x45149303c5a4c;0x826ab460f00d1;0x6907535c86793;0xc93366a82920b;0x2c5e8abd3ba06;0x83b5bc806b094;0x4042f9244918e;0x9b318cef4b78c;0xeac9a1af88a4a;0x1];[0x1;0x11e3d0b71490;0xf83f4774a65c6;0xbfb6179c8e3d4;0x875cca9b9243c;0x263e90b9d581a;0xdf638d6692347;0xa44b2417b7275;0x898db4980206a;0xe3b56bd4de490;0xeada475ea3f];[0x0;0x90a188caeb8b0;0x97d77a2086486;0xf68a9ad388853;0x2f1422ff1ae0e;0xa4216af8231e7;0x26d1abcefae32;0xd5abfd3b83db4;0x2b588d7615e75;0x741096fb186b1;0x14bbf8f88e796]];
 [[0x952158361385b;0xfc5fb0acd2f66;0x21b7f7194a58;0xed7e42bae64a4;0xe49be322a4e0a;0xdacaefee11136;0x6cbfc5dbbbbda;0xeb25fcc5de8bf;0x1df4387bd0fba;0x3c5cd1ae499];[0x1;0xc2f0a3c554755;0x3c0bb03d1df08;0x388cd0a3aad25;0x7bfc635bef2c7;0xa37f541f1b724;0x4a9dce266a037;0xd568d0ed53fb1;0x794fe305e4267;0xd1757bf1a9da;0x87fa81538f23f;0x1];[0x1;0x3504ae4951049;0x3ced8f69c0f89;0xf608750469354;0xf76b4acf7d5c1;0x2664361980a98;0xc28a33adc51e4;0xa882de9864949;0x4357a95918a55;0x80bac48628e16;0x12082bc8b0e3];[0x0;0xc5c937466ab46;0x78864b19ede97;0x39a46b9390bef;0xc9bd09bb8de44;0xba7947027133e;0x4d3369b3a2f38;0x19b4e27a61b68;0xb84afe834bc55;0xaa13f5bbe20ee;0x783ed121f2dca]];
 [[0xb16d39dee0d9d;0x1d68067a6f28;0x35926fc5ac660;0xf04b9a5f74f3b;0xdc8dd128763c4;0xa9df9132922ea;0x1348b69b4a031;0xbbbd472e9cbf3;0x284578b793b67;0x35890937d78];[0x1;0x58e11fdf64ea6;0x60b4efebd6b90;0xa34e84f65037b;0x2627889a8df6a;0xa80c797bd2588;0xc55ef662d6030;0xb9e2a0b82c8e6;0x1703de3070918;0x7d4954aa523e2;0x9617fdfe7aabe;0x1];[0x1;0xa6725354f3b39;0xadc95ab8cd83;0x6a89f87605e43;0x188ee921a72c;0xea8c54ff9371a;0x9d277c247ca14;0x1901fe9832f69;0xc718f06bc999d;0x1be775e2ddbef;0x1830f3c75784];[0x0;0x9900fcadfc0e5;0xf597c915652f8;0x72ef7cb7ae8c3;0x182c8b5fc127f;0x79e6a93aef798;0xad6516fdd0a7d;0x81d205aa68008;0x1387be2942ec7;0x605e2edd661fd;0x6a2503c5fae91]];
 [[0x61cba569e087;0x24cb8fe9c6d12;0x93770c67816d3;0xc9e1622183da9;0x95b693af313e9;0xc40e0be7970fc;0xa00f02b7bb62e;0xe5d8e967f40af;0x1dbd7c382a0ca;0x3d153051804];[0x1;0x659b8a0fdbb3a;0x84bcd6c63cdf8;0x2fbf085d99e0f;0x2b53b69d443c1;0xeeeb5aca21198;0xd0d33a58d7f73;0xea827560874a8;0x115edd11180f2;0xfa38971586dcb;0x8629ef59d5ed3;0x1];[0x1;0xfb17bcd517da1;0x629fee50269b8;0x1105ef041a3ff;0x148d54afe2021;0x51dfee6aec4fc;0xa1b64b15acbad;0x9af6b4578c510;0x27fc9d0a360ac;0xb26060365e35d;0x19fb05af8a8e];[0x0;0x5450ddb4acbcc;0x651e2a56b12e2;0x92afa8d92af1a;0x33455877d58f9;0xe0b1b7d3967eb;0xc54b7f1268b33;0xc0ea69eae639;0xb96a73b0009fd;0x5f6e0caf4d77e;0x790878b5d1a79]];
 [[0x7a36ec46393a3;0xcc7142c48254a;0x69eb54ce87003;0x1472b43005676;0x6cb42d5710a65;0xd881f1a386a49;0xd96f136e3c965;0x34e1b5d4ef3f9;0xbea51fdb147e4;0x4c5c70f6af2];[0x1;0x53b73110288c9;0xa9641a390b313;0xf21cd544401d1;0x1ed515ade4f62;0x76d2f048f9f86;0xee847c9c71e05;0xa8e1ed5384fc8;0x7fa1c3fd99d9f;0xa0e162376f646;0x681e029f0837b;0x1];[0x1;0xf80fbaa674ab9;0x7f851bb7b0bda;0xcab3bef12f05b;0x80f9c36d941ea;0x341d1b2ce060a;0x109c1dad16164;0x2df3deee6b738;0x6800e7b4a3418;0x4ba692f658a21;0x1aff34a69ab6];[0x0;0xc89d9bb6890d0;0x4bbb344a0c68c;0x5f6a8672e8a1d;0xf088bc56af537;0x3008e7fcfc79d;0x9fc398e82069b;0xb049fc451a0c7;0xcd07bc3e48061;0xee155b62fa06;0x9861e0ec976b2]];
 [[0x2c72c7483d928;0x9da9393f76ab2;0xb3d2e7d0b5a96;0xe7d8e6de024f;0xb0807a10bcb51;0xe8086756face7;0x9ad0bdb224120;0x1f95a43252adc;0x82d0b9c9ac0fd;0x16fdddb4756];[0x1;0x1ffc009aad820;0xceeb493fa1e75;0x3481d25d6b10;0x91706e529daaa;0x6dedadb792f2d;0xb90aa4430501d;0xc57a964ebc62c;0x5709ded123748;0x6d3db6ae80d8a;0xd34991c292447;0x1];[0x1;0xf5d33ff80d240;0x314a71c6150f4;0xd4383d3ba31b1;0xcf2fc0bf7db76;0xc0c184d18822d;0xce7ccad7c380a;0x1187f6d39b88;0x572063858ed6;0x1ad98a1288c1;0x165bbfb57f15];[0x0;0x3f0783a6fb5c0;0xfd7e6579a88df;0x1dc572e0a18f2;0x4ae712ed447a5;0xf8dfd9e27f7c7;0x4ddc2853fff86;0xb2676d1968d61;0x2e5a1ab99f3e2;0xb5e0186f9f325;0x2d0f4437fa7ce]];
 [[0xf56e829ae1c04;0x7b4362dbc404f;0xb7fab579a6891;0x498556ddf9772;0xec2298bf73950;0x62d129758732c;0xafde5963419f9;0x803b8dc151089;0x47c4c34544d9d;0x6a81e3e6720];[0x1;0xd76d78176d174;0x4fd369fca65ba;0x49f47f6647fe7;0x4620a74f0b3cd;0xb5159cb004f68;0x697b5141c5632;0x62dfa217feac4;0xc6868f81494b1;0xeeba54215e373;0x2b0c3f6b34b2e;0x1];[0x1;0x7de1a342cf710;0x7345bd4e5b4f9;0x8b93cb44b1596;0x3d975b3918b27;0xb2e50dd259f64;0xb0fb5bf72f128;0x8b5b7b1215a5c;0x2db74f462b312;0xf939328691b19;0xf756362be50];[0x0;0x93f1d3c7674c;0xdc4d4d2cb4a24;0x646447d9c4aa1;0xf6c5593a4ac42;0x4f59cc28cd4b3;0x60107ddec2c24;0xb3ad0c26d4e85;0xbb469103a77d6;0x9fd28cd8da4c5;0xd421913d24690]];
 [[0x8c6a5d80e9bf9;0xb4c746849bf74;0xab9f589167b82;0xd357d4c62fb0;0x803b64dc3b1a5;0xdf34cef02bd77;0xc517e610107db;0x991de2d57113e;0x334679983e1e3;0x346d038eb87];[0x1;0xac339d5f71633;0x80b43ebbbad;0xae3452f59d198;0x5dc7c22f0064f;0x8a07a13e0223a;0x9f34db863fb4d;0x6afb4b212c7dc;0xdf6dadecc97ed;0x644592a4dec4f;0x983a64958a2be;0x1];[0x1;0xb12b62a64dea1;0x46d560b7b9f45;0xc50835d01bddf;0x36e5fcdd88cdc;0xd981b76dd3796;0xf9fa61bfe4b33;0x39e42efaca2f4;0xcd0dc0d0cc8ba;0x79945b0d7e0dc;0x17b4a1656278];[0x0;0xa332d64cb74a4;0xba4e9e2f8b3de;0x8c59dad2684d;0x2f2cf6820ca7f;0x9d6be08a65a0;0x11daa2b1d892b;0x40d7030be8b5f;0x9d25c3b9e6fb9;0x2ab15ead45ff1;0x687c6b772a570]];
 [[0x70776bc20bc81;0xe869100e48305;0xe96116457473;0xe47a14f4a5710;0x6bc817f6b6e6;0x63a7374744e8;0xd65badd44b9b;0xbcadf510a6230;0x10158b9b6da91;0x13597227973];[0x1;0x7d8771fcc01c8;0x9912c730afdce;0xe0ccf706788c7;0x44c8a9beb2221;0xa836dfb2b1999;0x3a9442a4638db;0xc8ac822799632;0x647f6b57d5f71;0xc40fc2c33cf6;0xda6dbba6e05ac;0x1];[0x1;0x4cd6c754e4a71;0xece36f914ebc8;0x20d4c52458d75;0xa054c9cf630ac;0xc3fc6797016b4;0xba8972a8a12bf;0x2ff124319dccb;0x6205e6d2fdf69;0xd91117e9a61b4;0x1c711d864f24];[0x0;0xa1124e13f29ed;0x96a6b0c450845;0x4cddaf5715c4a;0x3e95d10224c72;0x8e6941064097e;0x6f25c3bcf9a49;0x86e1962d448da;0x27019420e8fa7;0xf1e0796cbd794;0x256b35dc4930e]];
 [[0x25c657a6a5333;0x56bb3aee1e29;0xde515b478442e;0x74e0d4ae7fe2a;0x15a70d6ffc65f;0xae23b83093aa2;0xbe59a16ebd6bc;0x1cdff97fd0d23;0xaeed2ff12c11;0x55e2770d0b];[0x1;0x532c7518aee54;0x919e4039c48e3;0xc365d009864ad;0x43b42c2bcb82;0x649f54638a647;0x6aaf9d70599a3;0x7262d669899c5;0x1c335e0211f6;0xaca3448121e13;0xf5d8ac2a248d0;0x1];[0x1;0x620b4947e3719;0xf4da31758c9a1;0xa0c144fd65a6c;0x7cb883a5a3904;0x33ae12ad0108a;0xbe771acc0a599;0x655629e08e7c6;0x414f4c9876636;0x7837c41e858de;0x1989017f9b3d];[0x0;0x90ea4289af2a6;0x26a8f4e8b68e0;0x3d98e3021e3ec;0x6354d85bfdf37;0xd1a9477924dab;0x44bb59918bd84;0x6fdf0eb2b3067;0x35a3e69d3d47e;0x99cb7de946444;0x9851409bd513]];
 [[0x4378d58490af1;0xe94b506043764;0xc83595963708c;0xf3f9483be44dc;0x30be2074ebd0;0x5aaabbb672d77;0x9ca09de907da5;0x2c1f2abccf5c5;0x980c492ee14cb;0x425ef37c6e5];[0x1;0x3fda9e84f86eb;0xe787350799f67;0x337a4dac6c253;0x9e6696a584b86;0x35f520492cecc;0xe66d4d6416e9e;0xa36733a36e16a;0xa2545629e075d;0xc6783e2d45f7d;0x7c29dbd7d26f2;0x1];[0x1;0x9c440f2533a51;0xae7a743ed673e;0x14d08c7950294;0xf222ddf4536b;0xe53f2dbc7afdc;0x81183d3c18f93;0x8ee2ec6ecd2af;0xd71cf5dc36704;0xbeedf109660f7;0x1128aba1181f];[0x0;0x797171b3d6469;0xe6b6d7240e76a;0x9cc4e9b0cfd3d;0x934c3bc046b0e;0x194ae1ee4b4e5;0xa691cb631d539;0x1738f44cd7b8e;0x7cd354af3274a;0x3223ff0fb520b;0x83e9295eb9e39]]]
 (V [0x33ab536889001;0xa1b048851305;0x92c4bc1d83e08;0xcb0bde9d7d804;0x8e6dfaa728403;0x4127645283cf3;0xe59fe6b3fe313;0x2a16dab04318d;0x5ea13fbe9b9f6;0xb08fc07334] [0x7b557d6d0672a;0xb5b444103dc12;0x31edb1fedeb72;0x2f0cc25977cd4;0x12c2c38e8117f;0xb49c321e6edad;0xa1f8d8150f0e2;0xd449ca310ff30;0x555c9a5d30d83;0x21ab225e747]) [[0xa549db27e7f0;0x3d702d80bac46;0xa0111402ca43a;0xdaef984d769a7;0x4a21e77a2a00e;0x3b4e9a477a031;0x94bb72b453e97;0x3cd17b62b557a;0x55363ea4f3849;0x99fd86797d];[0x1;0xe89067fb04730;0xd79e38ba3cdd7;0xe33efda475978;0x13fc5214e3c2c;0x1dc9c6275994b;0xd32976b1621b5;0x294eebf42b95;0x82ec3b13b603e;0xeb42a9fdeb1ef;0xed0f74e1a662b;0x1];[0x1;0xa9167f4347100;0xfa70204c946af;0xb4ca29b721c58;0x42b31dbfa115d;0x5c9a780828f0b;0xf3fb1f885ee8e;0x6f57957c24226;0x38b37ef238396;0x78f87d04dfe5;0x15d5b27b9224];[0x0;0x73bda74330650;0x5ff938e469407;0xc02d2515e9b7a;0x23b7e8aeb8a18;0x9978c6ad0ebe;0x39ef44e401ff5;0x5161f71dd8d5e;0x52083520b5148;0x63fd2d9e86be;0x12466a0f408ff]]
 [((V [0xef1523776433;0x9fb3d9da73dd6;0xdea6de9d0a965;0x141272c710d10;0xd86b7dc8d2238;0xe6e828f8cd6ee;0xfd5a13a5d9af7;0x6472101ffcc8d;0xa68ec9b29a56c;0x53bdd50bc82] [0x7bfdaa8930bd4;0x4eaca4ee1114f;0x352606fec5e03;0x70b0772ef9f5f;0xf6d037d2019b5;0x8798bc55c397d;0xadc96ab361088;0x396d6102047ce;0x612313f96d544;0xc56b2653fc]),[[0xbb8d1b49032a6;0x918dd8ef82f28;0x2555f360dbaf2;0x8e729a2e0b1b2;0x56a8b72eade82;0xa97fbb9a80384;0x9a37ec497dd96;0x866114121fe3;0xe8763de99bf63;0xe5faed5cb0];[0x8bfd1ad695313;0x63f9e9cca2c2f;0xfd70936c84ac;0xf5db28ea245dc;0x6214c79a0894;0xd15698cdb135f;0x30a2776d42560;0x14edf63343a0e;0x29992ff3c9d07;0x22318ecc4d2];[0x1;0xe6a228f95c171;0x6dc0d22af412e;0x69d027bd5b2c4;0x1e22b1e83c511;0xec3c39147b3b5;0xda4086c2d5d85;0x34e006ceeafff;0xcbb632f45e140;0x26be252cf6a10;0x436f91a5ec5];[0x1;0x5efbf9355bef8;0x6c0c73855b320;0x50c4212ef2eb6;0x8029acfcf0eaa;0x55f86806a63a5;0xa33b82c5d5b93;0x15e662caeb386;0x4245ceed9c497;0xf6bdb4bb5116d;0xc5999344634];[0x1;0x2973f6ff4ff64;0x4a6d98790a50;0x2945feb869d0f;0x7d2bda5360e42;0x8af83f013d47d;0x8740cfa2f92e5;0x566c6845c8123;0xe545372392481;0x93dd3c677eff1;0xd202646f24d];[0x0;0x5936954453652;0x35a546e9b88ee;0x4fef2ed9b4cd3;0xe98b6f41f88e4;0x9e0e2d40d66f2;0xf5047f4f61942;0xc30a6539f0bbb;0x1b92cf46769a8;0xc92d29893adbb;0x1c698f8f9fa6a]]);
 ((V [0x94378265505d7;0xd4c41aa70e409;0x59c64516d736c;0xdb0a7b5e13f6f;0xec93d58e55aa6;0x5efecf74a6d2e;0x959500693b883;0xdcfd6d7a8bb30;0x17779030b0dfb;0x190bfd65fe4] [0x7f454220e7822;0xa05e637433bec;0x36bb545b8c5ae;0x80a6eeca7d668;0xa2bcdcdf02201;0xcac2365261214;0xc79f09415a31b;0xc2bec5e6b9e91;0x57e8f4fc2f7ba;0x5850a9bb9d4]),[[0x5d4c3670d15e0;0x2d9ac1bffd84b;0xd145098b93e3a;0xc8af409199c07;0x90c714c6f4f1e;0x4ffd2038b2046;0xacf411aaffaa0;0x4ed62c26517b0;0x5b0d238973de0;0x6d428999cc4];[0x54c3c8b97b4ea;0xec85a1d0ee8b3;0x131edcad6d493;0x3247c6fb869f8;0x396d42dda7b37;0xd95408e172e7b;0xa390f558f1570;0x4e91d2334f4f1;0x37423b9840822;0x57905211fd7];[0x1;0x84ae34b869d19;0x10accdd6446c7;0xbf945d2981c02;0xcee1e3aa6c1f6;0x8637aa743db10;0xedcd84e9cdd37;0xbce76fa6032ca;0xaae7bff0c78e8;0xb93b3f991c3bd;0x78575a5029e];[0x1;0xc9c58430e4b00;0x286ace7a0d05c;0xe5b242492137f;0x536628c51d8e7;0xc13f70f1727ed;0x815e3847adfc9;0xec9818ed092a8;0xe70d74113672c;0x89ed53f23e478;0x1f85170a84b2];[0x1;0x38d0368fc4400;0x368653cb236cf;0xf95cee549165b;0xff3e21f4c7d11;0x4d5cdbe8ae47;0xfcd1d91b600b5;0x56d11bf82b7db;0xc0de693bed2bd;0xf478f4675bf0c;0x123cbda0ab2b];[0x0;0x9ae196383c160;0xbdee8767d1fde;0x16791ebc84d14;0x98d855a12a9be;0x5e8ee7a72e0b3;0xb4f97ae0ba4d6;0xaf53c87139afb;0xf9d7b387eef90;0xb486549c938be;0xda5b20f95fdc0]]);
 ((V [0x1f99f2dac6aab;0x5f90dc80b1e89;0xdba7dadd5aa90;0xcc120a2aab029;0xc05f0e1cefa8c;0x494055f468659;0x6f3114f94d049;0xcaf331ef3b7ba;0xa89f175b0c1c;0x79589db3be1] [0x929a7ecab16a5;0xf303eae7c6b09;0xcd366e1ad26f9;0xb1788097deb7b;0x241f0815b0f16;0x23bd4a43ba34c;0x73d2402c0e19f;0x690562b55d054;0xdce17363c22b;0x63826f7f0ad]),[[0xe4b70cb1d74c5;0x59fcc32409743;0x3a349ccf181ce;0x85abf3ce8a1d3;0x89cec0a3acdf1;0xf7c2dac34b102;0x8c5e6edcf36cf;0xa51f9fd203fcc;0x1893331615fb2;0x77443b00a10];[0x877f2c325d622;0x6b1b5fae83829;0x8208d0e675763;0x4eb0ed6e89437;0xfd68907749d8e;0x48b7199ed9d3c;0x91d4ecdb9ac5a;0xbb1778947874c;0x65ae2f29c33d;0x47badcd4ff4];[0x1;0xd1f72156eeb01;0x91695be5464c3;0xaadefc803d88e;0x4a829c9aff716;0xe6dc20fef7c6a;0xb852ef45efb16;0x9971ebb13abc1;0x2159d4f994bae;0x203108bafd07a;0x8a8f098ea40];[0x1;0x6e6aae5176d14;0x2b57e202d17cc;0x9fc7a7ab1852b;0xe8f61c86d6f3f;0x73b854d9b24ed;0x6da9806a77d3b;0x5196fa0b3be5d;0x7389f36adb5f0;0x8125e2b68ec40;0x109cd0a45911];[0x1;0x46ba18c782b89;0x5495915e9b53b;0x7dc1964ccfb49;0x1284a2d882d32;0xffee2df8e90db;0x4d72e58dbf635;0x2dc9ff805fd;0xecb7c65a6c31f;0xaadf70fabbc13;0xe7c02eeb7de];[0x0;0x3ee45607a69a9;0xeedaa09f500a9;0xb56e724541631;0xb1a13fb18734f;0xa3cfa1ab9bd17;0xddaccd6bb8ecc;0xb3c6726c1b5be;0x13dde2cfff20a;0x15313d6eed1ed;0xed2e5977ac174]]);
 ((V [0xc2549f226650f;0xd28e03ecef557;0x5e0dcd9cd0401;0x86461d2c10d46;0x2cc22583b49f7;0x714ea19943558;0x7f9849f130c58;0x4dc2a5f6a333d;0xfdaeca24e3051;0x53ac7d92bc6] [0xd430982253351;0xed48aedc079f8;0x4196a96af6a;0x400111546098;0xdc347dc0f33d0;0x3aab0e82daa68;0xc2c5781f23b83;0x79178f294cd63;0x26bb254a0a86e;0x61281eb6e12]),[[0xe37794497ab0c;0xe52be83c33a57;0x2317f2bce16ea;0xdd8483755b2dc;0x1bb34acd504e9;0x35efb82bba906;0xd23ea5f761a69;0xf41926dce3b7d;0xe8a0f6cd81fdf;0xacb0707203];[0x3e06594e62bb0;0xa12618f14c226;0x4ecf1a3ad4690;0xebf12c78c28e3;0x182ce68ad23bd;0x92bb4fec2f8c4;0x444858d987cfb;0x62dcbe9c9921a;0x4736d76867b20;0x50016fcaa2c];[0x1;0xfeabd07c82029;0x2a284f91cb197;0x913e10db27f49;0x6506f421aa8ba;0xe1cb033172686;0xe087a40e9fc06;0x16b5e16529b95;0xaed39c447a37d;0x267ebbad5d25;0x2cf91813d8c];[0x1;0x41a37eaf6e9f8;0x3dda47ff5be98;0x50e82a957ea22;0x529d206a56d23;0xc6683bdb2c4ac;0x19de330c6c1a8;0x3a4b439179ef3;0x728d958c8f1f7;0xb37b826515aea;0x1cf4090acf75];[0x1;0x59fa833a75790;0x34f5ba69c5378;0x88c83ef902465;0x8cde4081243df;0x71a3c2fe09489;0xd07b933f11e99;0xf9a2e69d28690;0x196d24c23a2d4;0xb8478ea096168;0x28bd276d3091];[0x0;0xf3be927f4c8bc;0xbf686cee68708;0x586112e96c1d6;0x222650c4ef22;0x1490cfe2756f9;0x554b51326def2;0x8bb6904a389d9;0x7048cc33985a9;0xe3cc88681de31;0x141ab12c6ad08]]);
 ((V [0xe0083aa0c5f37;0x65981bf12ee4;0xc14d71b8779c9;0xf09e304e71ea2;0x9c9776d079cc0;0xf0b2fdbd4ce67;0xe5f0b73f73bd8;0xa904952d1ed71;0x346c730addf8;0x22432706d9a] [0xc733fec7606e3;0xfffe01bbe3d51;0xf57d16fe1cde4;0x28c996d321346;0x6223e3cd25c3c;0x9b3130e017b4b;0xecfab214d0c6f;0xb1c77cb2bfde1;0x40950df9e040b;0x682385129ab]),[[0x504b1a370b644;0xc1a735486c353;0xc01848a2cb4be;0xba364f8889a17;0x2f718de27c236;0x7caa578519837;0x15347fea3f3b2;0x6ac8677822773;0x27f78ce850d64;0x74b0a55026a];[0x3633f53edd3bf;0x9d0633169487d;0x40f591ae4bf09;0x92ea16462507d;0xa8bba1352258f;0x6d974619735f;0x2b12bb23e9826;0x3433ff21217f1;0xabe07f0fc9e6a;0x3f49deb717d];[0x1;0xcadeefc805a51;0xdd1fda8cf09f3;0xfddb6ac346183;0x23a322b8caccd;0xf13d388a93272;0x275fbbb6d41b7;0xb5e451a3b8c3;0xdeb2a2b28c2c2;0x8bf47375d165f;0x47e12221edc];[0x1;0xcf95e8a2f0a88;0x21758727318a;0xac4e61d1ff687;0x7867e707c495f;0x903a263b0ab69;0x940173d93c2b4;0xb5ccbe74ab570;0xd7410c465299a;0xa9000c32b7f03;0xca965755842];[0x1;0xb40d4bbc5b910;0xc6efe1cc4eadf;0x425c8235ecc74;0x97e2106247a6;0xdac92f3708386;0x3ef0eb07e75e2;0x623024c44e8f6;0xa32f522a498d4;0xe38d6a559519f;0x128d724efed0];[0x0;0xca48ab015e6e4;0xbf09a3c5a04b9;0xe6463984b1e36;0x995a8a276ddae;0xeeed58e5788db;0x3fea6a45a1c68;0x9a8ea673ded67;0x7e131b4e15521;0x8fd7e305b4fd5;0xe8706fa520f42]]);
 ((V [0xfd2f31549240c;0x401fc97dd9110;0x4d4c7515545d8;0x5c4b0333d8d17;0x3d5c7213ecffc;0x8b55212607d3f;0x5882ff149805c;0x3697968ae46c2;0x801c4c2fc68e8;0x107c608de4f] [0xdcbc37e9af3f5;0x2c35d714a50c7;0x9435fafc80227;0xbf9c5d9ac30a8;0xcd46847c73479;0x550cd7227d834;0x5e80450b7754;0xa88a860bcf031;0x7f634e3bafc1c;0x5fcdbc54807]),[[0x4f3fa60f12b38;0x5d774c7671ee0;0xfb58f53c22f4;0xfa4d178c7c728;0x9b4ace7ed16ca;0xf69bd1e63375f;0x9f5df72ae0da8;0xee6f1ba70008b;0xdd22df3a9e269;0x74a7cffd3bd];[0xac775b3442014;0x2abc756e36f45;0xc8e58c3a588d2;0xffd28268b08e2;0xd58cb22549317;0x374e315eb0464;0x971f1655fed6f;0x68533e0bc7929;0xe97863d4a8a34;0x33c3212bc5e];[0x1;0xb42b06a95a41;0x79b245f5f6b47;0x25a687a80923f;0x88d563d3be7fc;0xe3bc2fa346888;0x565a03f9c8ad0;0xc8dc0bc51c778;0x1399d8975f60e;0xe128082f5e494;0x5e5a7261012];[0x1;0xaf90692dee850;0x83437ec66a455;0x2c6304f089e79;0x3ed775fe7b12d;0x6ea7551e46887;0xa5f1267a1bbf9;0xffb2384c32c05;0x8c396b70e75bc;0x9a53cb09cd829;0x78c156b6be6];[0x1;0xa23c65ff07840;0x75234182449af;0xe32c730ff279;0x2dc68fe024b18;0x4b4ad2db28483;0x20a6cb2663d37;0x14c0013af6b1e;0x145f706d6fe6f;0xf8ed75fe9141c;0x3fb4583a292];[0x0;0xfd43a27f97b50;0x76432c8d3d8c8;0xced2e9c00a8a2;0x7d85b96d49e99;0xfa560afc4ad98;0xa052d45e18a55;0x20fb48861cc08;0x28bbbc15f7e32;0xe24fe5263ef6b;0xe84498b9bdf0d]]);
 ((V [0xd732c02227f33;0x87169896af998;0x4645c40811be;0xc4c84e703b6a2;0xb628712ce4800;0x3c23100c790c4;0x95514721b05d5;0xf114cae9a9aff;0x42bccb3127cdb;0x246b3cf9ba7] [0x570fbcfec9387;0x626301acdd48d;0xf0d856608a72f;0x6a22e2d28d6cb;0xf5e4c6d31beee;0x5a0f569a6a1a4;0xa99a757de91e2;0x59642f5b08a9e;0x725a9f72b4152;0x7f7f6d30c92]),[[0x5aca5a53bdb75;0x326aaefebdfa6;0xc08198b118335;0x356f59de414cf;0x4e3351d7989df;0x7e9e8c14a74b0;0x88af211a9a670;0xdcb9a9fc761c;0x491a92c4fce96;0x6b42603cc83];[0xa2e096f494e00;0x658b3b7091e6a;0xd91bc0c28e04d;0x8b934da40736e;0xb66c83d5faa28;0xbde7b45f83c2c;0x6210dad0b3291;0x86a18b7f1d8e2;0x806d98a5bd6eb;0x7c8e8e87662];[0x1;0xbdcf0cc002f90;0xb081d3c24fb35;0x70fdc397c9694;0xe577e95dd7dca;0x2a5ef16763dff;0xc983167f62b04;0x540dc96d7ad26;0xbb22f0d827232;0xf7fe681e59c5;0xf6fd8c0ff75];[0x1;0x4d32acb897d2;0xa0b37fe58dcaf;0xef359512d31e5;0xa52ebb386fdc;0x158a8d7621540;0x73b7ff42d12d4;0x366f53b0dbaf0;0x881c2fc348d45;0x2301a16b07e45;0x24ac804154ff];[0x1;0xc0d156d100169;0x989f4fc86284;0x99ceefe88946d;0xd3135217cf739;0x591c8bc3181d5;0x4a5047a913c61;0xbe61333371ce1;0xe856ffbd50fac;0x6bbc3a0a0cfcf;0x30e6e0d9e30];[0x0;0x6cd23bd9f0a98;0x8ed95b82bb082;0x498b4dd76d0d4;0xdb7cbfad8afd8;0x799efe05a178f;0x15ccdc573a709;0xd42f9f6397542;0x9b9bb004eb79e;0x432519e442449;0xd520b4845a359]]);
 ((V [0x6fef461de1738;0xb34cc7c121faa;0xa7b21043480cb;0x34752773eff64;0x9940b309a5e34;0xa6e41ac050cd;0x1fd26312946d8;0xe86a67d29d97d;0x4dd5f8371ac95;0x36a79232827] [0x689ae87cb45da;0xf4f1665ab1d35;0x5051e5927eb37;0x9a5fe95c7fe79;0x20bdfa1e19c90;0x482ec6820086c;0xdbebfca15c088;0xbb92fecdbbeb2;0x721e1f1011700;0x1f08fd6fe93]),[[0xc48de97a8435a;0xe7d04bf6692bd;0x53251d3299638;0x4659d49d2d4a0;0x4d6bfb776e54c;0xdf74d34649628;0xd4c6a7bb9991b;0x8010944c8dd11;0xf39e3b9413e13;0xadebe4af86];[0x393f2b74f563;0x94d9141d6ebd3;0x7ab7e52c02e89;0xc85c334e7b3b2;0xf73ed9d5d45d9;0x58071df6b35c0;0xe4da7af266719;0x29c3ae308f7ab;0xb7b2e3ddfa5b1;0x267cbe5c153];[0x1;0x8587afab3f19;0xf8d48fd6e3bd9;0x1c64d79610919;0xc0a80e71df726;0x2565b2de6672d;0xfb427048893d8;0xba56a05c7e152;0x78c985b349196;0x5dd7ab8252939;0x429cd093a30];[0x1;0x18a487a6cf82c;0x22f2ffc02a150;0xae59d5b22316c;0xfc41149f098cb;0xb36e10eb19692;0xfd4a76d1ba122;0x5e81514ba1194;0xd85612d93e764;0x29461dfa000da;0xd144cffe785];[0x1;0xaac1ff54c7764;0xd7845fc57dace;0x2eb0f1d9ae2a4;0xa7b2add87d8b0;0xc953f7437cd03;0x28b8086cbc6b3;0x27fe265f56636;0x62c6fc0ac1e99;0x489a219aa2258;0xfe0fc6f308f];[0x0;0xfe078e4ce0efc;0xb25ca6e410dd7;0x62da1eb8b97d3;0xacc7b16ea51ae;0xfc3839a25937e;0x421b31d4581;0x2417bec8c7848;0x9dd6b154215b0;0x537c71669965d;0x1489be0c91f74]]);
 ((V [0x4e59f3fa9e7a6;0xe92e8d5875f2d;0xd21d940aad826;0xef4b985d6a31;0x97a820ae8c1cd;0x2834680e3d4d6;0x96f4cff8fe578;0x48f04f357f39b;0x1dba4bf4d485d;0x5470ad622c8] [0xb4f469a18380c;0xaaa3a626496ce;0xf21121a4d10b1;0x8a0c2c97baca1;0x10caf7c80bf79;0x82b759a9ca83d;0xe8e2d1b190e39;0x62ae48d1f64d4;0xa3a21d397fd20;0x453e2d726c]),[[0xc8b31af66c315;0x52a798e9078e8;0xaf6238d70e869;0x7c6bc15e6e06b;0xcf5ac72e37566;0xdd417d16cf53a;0x352614eff51ce;0x4295eb4343070;0x9052d5898d32a;0x629241485a7];[0x990c48800e737;0xf170629e5d9cf;0xa622f3afd3704;0xd9a2b06bf5996;0x7b28f0a7f1eb5;0xa31186f300dc4;0xc3f6c90a09d83;0x81d0a2f402515;0xf3c359f62b584;0x5c8e2638d89];[0x1;0xb4d656f5bb840;0xc464908cbeb66;0x3c8646acd7970;0x93f3baac32184;0x3da012454743c;0x79fd756fd306a;0x810f7476e1f71;0x6edefb939aa38;0x42727f95de1f5;0xa1c60db6f06];[0x1;0x8fd870c4f9b84;0x9e43455b46afb;0x61f88e79b06a8;0xe4d1cf34b69bb;0x761a2bf5c0625;0x5cb8a6f258207;0xb7a4f2cd2e86c;0x35b69c905b844;0xdcf0e2c9576d;0x1fb88351757f];[0x1;0x31ff6c49e39a9;0x949072ab474eb;0xe9d76170c44b6;0x19c60be8041ae;0xefd7ed9759c3;0x91003708a6866;0x3fc0d107ebdc2;0x5440476b7656c;0x3d3fd5beaa065;0x13797087a89f];[0x0;0x27ca5ec5ae8bb;0x50a8a0c16be0f;0x33e6d57a08670;0xb7658bd6a53cc;0x8854d64bd9b46;0x506cb66d9f71b;0x39c9df97e709d;0xf01e5c9d13e62;0x5aec018d14537;0xc5296b100ab5f]]);
 ((V [0x2f5b718cf166a;0x21ee42d54a5d0;0x9b683b6f92e76;0x4dfa03f99fc4a;0x6edf8cedc5097;0xf4db06c70a30f;0xe7ebd4e45b652;0x913e72cfcce3;0xfd51f77ebdd30;0x18a2ff3d5d2] [0x26dfc1ca91be6;0xbb2cdb79f1101;0x269236f37612f;0x8797b5e1e8200;0x7d2b1e91bf58;0x1f3c5755de513;0xc1e108bd7d5e0;0x8b038da985755;0x1d27dec9afebd;0x2aaa78743be]),[[0x806488687df12;0x556038c9320f;0x6bfc81e881eb4;0xb27ed004b6d7f;0x8e4c8754e6be7;0xa9399df6a453d;0xd194e433d56a3;0x5b765b84cd7e9;0x12676bb9dab3c;0x5d31cf5f134];[0xaee052a7c0c3a;0x61d01695aaa75;0x8be20c4345f0;0x57dff1941e274;0x13584dc95f5ce;0x2d020122175e2;0x2c8ee6a3ab5a7;0x9e30c351dcc63;0x88c01a1b20b68;0x46ba9dbb6ee];[0x1;0xb459fcd6fb64;0xeb06d9f0406f9;0x29565b51482cd;0x894a42cd75df8;0xd4d942399efeb;0x1eadf736cfe38;0x54326652eee4f;0xdef635f3d91e6;0xd18df6bf46c76;0x55c0f4b5acb];[0x1;0x616cc6fc4b6b0;0x20935dd0a8932;0x5e5618714add9;0xcae2e61b43658;0x61dab5b0a846c;0xcd62586e76b69;0xfd7606649e657;0x2c0b293a879d0;0x9d0c460888727;0x1a2126e8488d];[0x1;0x807480984ef04;0x4bf51306fc70f;0x5902220e04245;0xa512779867d5c;0x7ba752ced3131;0x7a8611857eea0;0x8387c9eab041d;0x971159a9e6b5a;0xbe626a18182a5;0x13f2e3f4b2fa];[0x0;0xefffb8af1585a;0xa9b5deabcd557;0x168257b892734;0x29aeabc4971f5;0xa5632bc12c773;0x5fe610a46ab1a;0x860bb5bab115e;0xc5c9c4f2fd4a9;0x4afaebf4bba88;0xba8e5e8d15443]]);
 ((V [0x435cab2cce0d7;0xd24fea15ba6f;0xe6777c61a1b8c;0x3c887f89d9edd;0x12ca2dced79ac;0x40149af4b5e17;0x8c5a1785d973b;0xae60ba3dde041;0x16bf3d87e217d;0x46da0990982] [0xda17f8086ab29;0x131f56708b335;0x493be9c03e422;0x259b55154f5cd;0x1195eb2631d62;0x31b7b5bb74a67;0x3b5beb0e61a9;0x98ef875f5dc5f;0x6012925107f0;0x422a962754d]),[[0x46acf068a4224;0x35fd822fe9649;0xc57c1c3b72d7e;0x15009b00e4079;0x18ded8b7acda6;0xb73ff32483efb;0xe307bdc6f078f;0x92c0d30bcb46c;0xa265727bcb261;0x8f0b63697f];[0xc7c7f489e0200;0x93a1b5f8009d4;0x3fc8c973c8847;0xc36aa26d5aba2;0xe1a1a93fa9ac3;0xe54df4e377ab1;0x56285adbdabc2;0xe331b180ad50f;0xa4bcaf297035d;0x6d067703b43];[0x1;0x362346c187ba4;0x6d974fc842528;0x6a9a278d9dd3b;0xa428fdd856731;0xfc54e9157d33a;0xa9c7a85270fbf;0x935db1512476f;0x2f112a819eb03;0x829e0f5f5ef62;0xd54efec0553];[0x1;0x80f5ba37a6db0;0x55292c81540c1;0x993ca7f1cb3d5;0x6de557e42e455;0xc800d59da2899;0xd0a73a0eda796;0x95ab1d8ec3114;0x4c92d75e024d6;0xfd997cf8e96a5;0x28831024ad24];[0x1;0x568d434e6dc10;0xa436667991868;0xd2660b91e1dc0;0xe7b996709e7e4;0x3022b09a8dfb7;0xfb9bc7fccec78;0xa677306af0863;0xcca63f27809bb;0x5a6129854cff4;0xefa034a381e];[0x0;0xbaaada3ae8438;0x81ecb9434005c;0xe8368cdf2bd43;0x78439a7aed69e;0xadd7c316d2d3f;0x1f62c318e3d6e;0xd12acb12757e5;0xf4cbe9e4746df;0xedeab05bed67d;0x110d78ac8ce25]]);
 ((V [0x7c4d4f53410d1;0xfeb116b03ed98;0x1a0de2a9724ad;0x10d8f1991d6db;0x28a08307fe9c3;0xa685b2d088e7d;0xf4ca037ec93fd;0x125d90467b190;0x65172adc1cc2e;0x720500977af] [0xca0251452687;0xda1dbba87f539;0x224ab763b11a9;0x39848dc37e574;0xdcd6fbcb80e0a;0x33d06b706f56d;0x1e05591d40a92;0x4f774017b8055;0xf42c9c1211391;0x483b64892ee]),[[0x6a70c2bfd0d82;0x9175aa6554d3e;0xcaea661c53179;0x5bbb4e0098cfe;0xefd64561aea7b;0x5d643f273cae3;0xadb14b8a24551;0xb1292e17057a1;0x3123ee7f719bd;0x34b7ac97da];[0x3bd65d57cecda;0x271fe24cb9005;0xef531e9c464c1;0xc61523545aaa3;0x1402531f86880;0x4403d61ef80d3;0x6d068dc7f0a63;0xc18e54bbb520d;0xabb773a3ec08d;0x61a8c6cba3c];[0x1;0xd5b557ea12501;0xe3815cfcd549f;0x8c5de651d17a0;0xbcb94b1cafe9a;0xe4cb647a04b02;0xa0d7285cfe0b3;0xbe740affaff86;0xf8d52deb58da1;0x3be4855e986a1;0x9c199fb88bf];[0x1;0xc007c602ffb64;0x17e79f3d0ec98;0x3e5a5feae3e59;0x69df1cb1c9dc1;0x9352b4a5e15eb;0x49937ac8153e2;0xc82b65b5c7dc2;0x7242eba7ec3a;0xea4e12276d84;0x2468ca0e28ad];[0x1;0x95ee0060e9bc4;0x96e219e7c3739;0xbbac150fb54ff;0xd60524ddbc90b;0x75f212522dbb2;0x57f29d41d1eb6;0x2c7b09491b54;0xeaa6d5de89b41;0x61e147ea62c68;0x1ff5c712d8aa];[0x0;0x9d56a4a261f36;0xee4f2d9adeeda;0x293f930f91198;0xcef4a2fc1589b;0x9e4420bee935e;0xec97c5457fb76;0xd819aae81deaf;0x44d1271ba646a;0x4f71912d84c2b;0x58458a203eda]]);
 ((V [0xafa9c556d5ca7;0x89f2f709f1da0;0x8c6a544848386;0x9a3f7371c6296;0xf8521c4b6302a;0xd052a958a30f9;0xe85381c1eda2a;0x25f031eaa857b;0xd7f5681e3c924;0x7764414587f] [0x3751d353457e6;0x513b15c2c9119;0x94f31d909d998;0x3c394e5e90e5a;0x35337ebcd7d64;0xb4747c7b917f7;0x10eac1c1a4bc0;0xa135972392c28;0x37324a815abf3;0x12df57218d1]),[[0xc56c54559dc28;0xf9021249f92e8;0x9c6300880d343;0x43fb2f254f423;0xb65bc419f023;0x6baaff05f5651;0x2872f94697ad7;0xa0e01703ff158;0x313d350201f03;0x4cd9ee8c3ec];[0x9d6bbbec60b10;0xdc6851830458b;0x86df10b896a4f;0x2ec4e5f9b20dd;0xeaee436fc6a50;0x82b04451079dc;0x38463a73b93a4;0xc8d7831511b9c;0x726157701aa8f;0x6158d10d1d2];[0x1;0xac0635350b211;0x30928160705ef;0xef20ce41409ce;0x4803e4ac892fb;0xcbaf06ec108f4;0xb23213ddc04c1;0xa3913b3e67e46;0xb8485861a656e;0x13c93b844fe73;0x5d20b8da5b7];[0x1;0x2199cc22a3730;0x64727d717bf4c;0xea342c4d26521;0xf71131cfe54ce;0xdf235ce38c48d;0x6acf13925ccad;0xe78ba6da1c5d2;0x21b2cf8577a7;0xbda96fd560e2b;0x1f158684fbf6];[0x1;0xf69761f69c240;0x806f7ea535727;0x5676cdfa8e72f;0xab4304e4e9e07;0x7f2e7b89d2e6d;0xa6807b3583eaf;0x158de6eb32962;0x43dc630d4ca95;0x5ac6eb7f19c89;0x288b84695e13];[0x0;0x790da9e63fe98;0xcefcbefab643c;0x55299c439b63c;0xa8bf65aa80b45;0xe299e64748814;0x9e6dbe5430057;0x12f221118b0b0;0x5898fcdec638d;0x2434e391e5e3e;0x994747dbce4f0]]);
 ((V [0x138af0009c97e;0xe1b8e0ff7c7f8;0x59740a8aeed69;0xcb95f4bca9ac9;0x65e902c16c715;0xeb7c4f0661642;0x83e5c20168807;0x330c58faeac3b;0x3f84d13312c1d;0xc95294e858] [0x926d4745e6fcd;0x7ed731042b761;0x43fac08bd45e3;0x4d8ff3a1de84e;0xf7319cdfbd4b2;0x7074db296a2ed;0xe87d581b5b605;0x1ba13c0ab2a66;0xb721369d8d823;0x5c7154e486a]),[[0x950edecbcc013;0xb23af7a688407;0x406ec0cf306cf;0xd920cc8bf9480;0x4f102dd6938a0;0xba29f38403e71;0x9cc7dd8a4b478;0x5aa523b2cf498;0xf77ee895996dc;0x3b84f096548];[0x9be6e2d52454c;0x95d9ce3882b5;0x4ca447adcd278;0x73110e21489c2;0x338706d8524de;0xb707f913b47cc;0x392338c44181f;0xba126c04470f4;0x3c17917cf98fa;0x1aa4109ff77];[0x0;0x1200d52dcd09f;0x5901f6223541b;0x47b204dddc900;0x1aeb8f704e559;0x2b8e063f7c39a;0x6a241270637e4;0x9a10ac9b1c2ee;0xc762768d0f292;0x115cc442b1fc7;0x3a1496a377e];[0x1;0x11d2e418dffe4;0xa9012e1cf4cd5;0xbe8919e6fc283;0x874a6649b534f;0xd74264c619c44;0xc15fbeb84097;0x1cdb0b1406f31;0x4d74eb6136b95;0x42a275dbff32e;0x8e4b4bd74e5];[0x1;0x5f6a053b62859;0xe7e401e7e4ed0;0x84fe3fba51ce2;0xe4df16a6d73d4;0x9d102ed680984;0x7e1d3fdc2b2f0;0x9fc7f752d341e;0x567aa1a60db8d;0x6d5d4817b1497;0x1db0e3fd69ac];[0x0;0xe96bf19de0a38;0x3a1e386aea485;0x9d81eea5ac1c8;0xb1dfde8ad9e1a;0xd0a5a3ab10a9c;0x219f73d4b06fc;0xd062481d3f2ac;0x2adc0899d9011;0xef567ea8fd414;0x76986f28919c0]]);
 ((V [0xa6a5529ba393b;0x95d2af9a646dd;0x910f957feb5eb;0xfe7bd4a553d0d;0x70908165a8f48;0xd4442cb67ffd2;0xa88130bd12faa;0x8a611a93efd45;0x9bd297ac69ef0;0x7c52900ed86] [0xf8d24f6f1c1a3;0x233220157d7f5;0xdd89836a4ba25;0x1a054e5aca829;0x5f7b1d9293d9d;0x772c63ee1d070;0x62baa1157fee9;0x8f4f199bd7dae;0xf66be622eb6fd;0x7368105072a]),[[0x3ec0bfdb07ab1;0xe5d9b9dd13cb9;0x121414b3d8be0;0x87831a104ac65;0x6a8afb51b3fe9;0xde1ca79889944;0x4309c8df700be;0x36235ac96a8ee;0xd873b064dd08;0x190ad747077];[0x8d2048dfbab9d;0xcaee838dc7951;0x26e4a79767423;0x469cee7c1861a;0xcdcc5e06eb768;0x9e5b65874a5c4;0x81723ceb85100;0xc9029fe1754a7;0x30617b08dab00;0x22b08ee31e];[0x1;0x46d4f3ec2ffc4;0xe82ba2f22f4d7;0xbdf830d4fc4b6;0x3c56759c8b3e8;0x4f985eee7f974;0x127020f38856f;0x2a8cec2f9f750;0x34f74ceff7837;0x9f8af0ae4a8f6;0x3196c4b729];[0x0;0xe82278c556326;0xebfeb09d8127b;0xf6812bf7f6df1;0x41a3fedc976c5;0x82bbc4020c78d;0xbbb98ef9beee1;0x59cbf14904949;0x54690c4b4470e;0x724fbc61298db;0x1729b83caea];[0x1;0xf97ca154279d1;0xd110d079e019d;0x35ac464f6b520;0xde4d7438eff85;0xec512b37e53f0;0xbd98321669c68;0x891c34a6d06e9;0xbc51f487d2d09;0x158eee6937828;0x126138854fad];[0x0;0x4c90848b5990e;0xa2e5666e27d52;0x3d6482597ed63;0x258c1e813f28f;0xc3f7550654142;0xc36e7c72904ee;0xbc93a4fc4c47b;0xffbca65f5d54a;0xfcb918022ae26;0x30792a26203b0]]);
 ((V [0x419487fe240d;0xeee71ec65d35b;0xd5bc9c12e1156;0x6dfa12e99a088;0x923325e63db1c;0x3c80d9195d960;0x8f487d300201f;0x83a1e8ffd2175;0x56e277c1e78a2;0x7ca1ece30c] [0xfebdd6d73fdad;0x372343bd82b97;0x37990efa0413a;0x327d78e86cddd;0x612acc0392366;0x18cfb706bf036;0xa02b6b97a6883;0x97d8555953397;0x6f6e5c09bf97c;0x53f50469c14]),[[0x9fafa4c535e63;0x945519119eeeb;0x19c8ee2b1e347;0xe37ccfe8011bb;0x54fbb0adecae9;0xecb8c66adab85;0x2730e3a8df9b7;0x8796203daedcf;0x21028ba4b0935;0x57e0717d631];[0x1572cb2f32573;0x6913c0008afab;0x52e401a4688d4;0x8d8016f234c3b;0x1e95822dee6e1;0x7925e16914a9b;0xcffb675166f9c;0xf9ad650da30a4;0x3a39300086f71;0x3ba55fd85c3];[0x0;0x139c1ad3ae077;0x6758c127293b3;0x148ef86a244e8;0x564db211d5745;0xd3c127b85e134;0x7d2741ac9a76e;0x867ca9ff9dfe5;0xebfaf41269378;0xc477b69992ea0;0x1756cad400];[0x1;0x761ed783551f2;0x9b276ff44ade5;0xbfa7ac8318b52;0x20fafe4b6dc0e;0xafd575b459b87;0x27c13c166038e;0x2293aa3061903;0x742f474f82709;0xa8c9d6b530609;0xc76a1005dd0];[0x1;0xb3203575c4339;0xef28362c4533e;0x124d264d82f7a;0xdb87a106848d1;0xe39a7c6e0a695;0xadaf5d96ccdcf;0xdb99f03daafaa;0x4ca268372aa41;0xaa605470ff9de;0x1c489da03b50];[0x0;0x4bfff825aed39;0xcf6c6b590e3e7;0xd0d03225ca034;0x106094d0cb166;0xc8019543a209d;0xd57e99362de32;0x193dd00c276a;0xd0899a318df04;0x85a337eb7a4a5;0xaeda0a55e1ddc]]);
 ((V [0x7a3bd628a83fd;0xab41db6b1500a;0x9765d24575c9c;0x9b47593156a5f;0x38cfa538775e5;0xa89de8af826ae;0xac061e608df9d;0x82c15b1cc2179;0xe01a9a5ca419e;0x73224b3eef1] [0x1ce5e3d94885a;0x35fdde09eea8e;0xa46fb9700f4c7;0x1fb6b6e119ecc;0xfea4f6f8a495e;0xcee419d133ac9;0xf69bf7df24a24;0x68e2d911054cb;0x9d7cbd77c787c;0x7d1330361b9]),[[0xbc952a5da6e6;0x83962bcf13754;0x6888cbbc88f45;0xd6a8e5df82afe;0x299a834dc9630;0xbcf1171824791;0x4d05352399883;0xddccfcc0bfa18;0x458b2cb07130c;0x7fcc3884e11];[0x6dbffbd2adfbe;0x1a3a5762ad302;0xaedb148fa5be0;0xe61476243d49b;0xc0b77be458a13;0xfccf596e4cc62;0x9071f42395e20;0x3d9d1922df533;0x402907906524;0xdd0f37a88b];[0x1;0xf38f15ba1bb99;0xc061d4a316f0e;0x4860bcc18ec69;0x3f6c71918a10b;0x679b0491a1e4c;0x3ac11528fc274;0x55821f4edf4b7;0x1bd7bb2f14a46;0x70620773b6081;0x1b288c6d41d];[0x0;0x640799650f4e4;0xec89c1c134bd1;0x8b6fbd450fe4b;0x5d0a6cae36fb4;0xa4d78d1fe0bb1;0xbe6f9634f455f;0xabd727f73750;0x5166db869b639;0x91ada11f55ba4;0x54c067056cf];[0x1;0x13773df5a2264;0x536695377d51b;0x98cd3bdaa5a60;0x84d8cf1fd2a9c;0x79713a8fcc0d3;0x20318713a3c2f;0x77d51031b0dc4;0x5c86e890fe423;0xb1c3023e847f3;0x85d48bbab22];[0x0;0xd552ad6709a86;0xa0776e1735eaf;0xbdbd5fcf06f8e;0x3720592bfbfab;0x6e811d79681fb;0xcc3d2bf1ea44c;0x7e8aa9fbebefa;0x6d63c9f941ede;0x7ab8cb0abd71f;0xfe0b0019029c5]]);
 ((V [0x14febca99b20;0xaead40e3b9f59;0xd6b57a1eeee60;0xeb7201cc1ae8b;0x54fa83d3a9c0c;0x9f92fb6e96241;0x53a7abc6f55bc;0x9f423bd07295d;0xa808c5a5d753;0x32b8977f82] [0xf74e9201c33d6;0xdc1550ef08fab;0x45b4d2097139b;0xebea2e5a97253;0xf158bf25a697d;0x8140ff36a3c0f;0xa18d362755ab6;0x6d1678ec9ec56;0x6481feb4e6680;0x3b1e53e03bc]),[[0xcd41e1788978d;0xfc2f74ed8b602;0xb1ad17e79550d;0x889b606bd0b16;0x300e105c72415;0x3e7a957ef78bb;0x7e3c68fc4b05b;0x23d1cde49bd19;0x7bed85d4580bf;0x2fa8428239f];[0x1b2b0252edf44;0x8f36277b7f302;0x4ff298c1a3657;0xfe7d5505f6167;0x854c9e54e145a;0x4964cabb3eb83;0x745550fdea5c5;0xf03d118c1f2b1;0x2b5a0bfbea529;0x4dc46815c42];[0x1;0xb1ab97e3a14f9;0xda909d6b68347;0x466088f861b36;0xc4d3a01a491cc;0x152b65465f0f3;0x1b55a0d1160b1;0x45cc673e7d754;0x41d15e946bc6e;0x992b39bf4918;0x33f927c64cf];[0x1;0xf10f962efa2e4;0x9863cfe8697b8;0x19c8c4d6ca101;0xb95c5ad084fd6;0x1c27bff93987d;0xddd84878c04f3;0xf0cb73ff6e788;0x242192a0abc2a;0x7d71f8e87aaa7;0x1757784c2048];[0x1;0x691933ca28699;0xb115544080948;0x9b63a1bf6dbf;0x27de7391965fa;0x5948445fe2751;0x54def82d95fb;0x556d2f24c20a0;0x78e58769f22ef;0x6bf6efb586f9;0x1c121d1e551c];[0x0;0xc36d5942a2ae4;0x73e4f1ae66bd6;0x9756d0cebd43f;0x6d79573af1aff;0x5be81e82c8602;0xe33ba709c33ae;0xb71b319bec04;0xf5f1e6307e58c;0x65ffba538a470;0x5e397a07fc03c]]);
 ((V [0x4c318679848ac;0xaffe40f9237e1;0x108c0a2111c78;0x5c27ecfd28089;0xaf2ca3476f833;0xaf66a941e27ff;0xed2f272414869;0x667a66b1bd359;0x594b033aa8f60;0x4e061ee30df] [0x353d3cd684e93;0xbeb2b31048e76;0x15f903090ebe2;0xf80981d3f0e15;0x9cdaab662d690;0x88f0ab95717ad;0xf7c54861ff6f8;0x6e1b86895a23d;0x9179179ce5576;0x2335d2d56a9]),[[0xc41c6d1897d6a;0x318fa85f81b20;0xbb037b4d354f1;0x788e38d7dbc05;0x493b1490d2291;0x9197b2c6a1cd3;0x6d82f60a7fe6c;0x522c0b097ea33;0x1330f4074028c;0x5792bd6bb2];[0x769eb36d06e12;0xea918c6396815;0xb7e77da43a189;0xa6795a4562ffd;0x15b0eebc508ca;0x85931d2af1b86;0xcf9e93fb6ce9c;0x9e81c3cf44b5e;0xc2ef4b6122f01;0x55d39118415];[0x1;0x1f5e99c698400;0x127481f5532db;0x43062230530ec;0xd6de8548868fe;0xf4452adf66cb;0x818d08440f9cc;0x358a8d855ca4f;0x45358f2dbeb66;0x8e080f79201a1;0xab9308eff2d];[0x1;0xad4c11b9829b8;0xcc65d37e4b176;0x2adc53c2d8064;0x9e9364f66a2d4;0x675b9d778a9f2;0x634f47d56f8c0;0xf2b7b2b32130c;0x1db02ae45f88b;0xe3367a2797a9d;0x1fde71a2eb4e];[0x1;0x205821a6807a4;0xe66c7d3d2e45b;0x26e4d5089060f;0xdcf7965bc73f2;0x385685edd7159;0x2624a70339742;0x7d9663a2e8867;0x1419c7aa501b3;0x1b8ccad298c6d;0xa87e798444d];[0x0;0x81c2531ccfde2;0x40eb49c0b74ea;0x45ddefc4cc914;0xb3fc1ed1497c0;0xe39b9f3994719;0xd37794196085f;0x6896265f9e7d2;0x81b8c46af86e5;0x114c81bd98a8f;0xa37f525c741a]]);
 ((V [0x8af6fabdb9c97;0xf875763c4eb96;0x88c043b334958;0x1c9ef1db79615;0x39f4aac6e086f;0x564774283758f;0x1257008b03f54;0x272b83d368a4c;0x3767d128afba;0x657da558f9a] [0xdf3482caedf5f;0xdde0e00547a75;0xaa1c003514bd;0x215585250a8fa;0x45ed36933b82a;0xe4d7ab2f93c1a;0xc9d615e21197c;0x806096ca6c77e;0x47ffef3728cea;0x7373eb1f0f6]),[[0xeb5245edc3c45;0x2da5a3ce9854f;0x62832ca9d2261;0xac22a51e7d9cc;0x85f7385723b7b;0xfed34806a9846;0x45eda5c4f94c3;0xc3936226b6915;0xcdc08b03fdc89;0x6a856e051d6];[0xdb332e3272bac;0xeb5a4cbe1f59c;0xa835440349ad0;0xb9c0d6f2e54ac;0xa699646813ae0;0x149e4629f79a3;0x993a9dd2b7cb4;0x1d1797916de9e;0x1c070561edc2a;0x6c87b6d1431];[0x1;0x67d92e0355290;0xd32d6d98ce64e;0xbceee107e5547;0x2ca473f9a75c;0x6a3df7bbb08b2;0x34221ed61756d;0x6ab89616746f;0x6e59d476bafc0;0x2e3555a7d4f0a;0xa97ff7b2e06];[0x1;0x962fbe2e2ac5e;0xe6a608237c1ef;0x984947c50e902;0x45406283c4775;0xe591f4bc9b3fd;0xd029821c1d4b5;0x4d6f5b4a69ac9;0x4372e84748eff;0x7de265b5209b2;0x25093bb54a39];[0x1;0x65e90fcf74689;0xcbf9fdb694020;0x7dba2141d0afd;0x761ef50639fc7;0x28f952d4967a7;0x91b4fb67d5519;0xdfc816adbd18a;0x2d3bdc880137f;0x884215d8fc317;0x1aa6e3ceeb12];[0x0;0x9a07e5d7a35ac;0x28c24c67af07b;0xe3484e51a2d77;0xf91736bf7466;0xdc0fdb9f3388f;0xa0d6c86a41a8a;0x95f9cc6c63508;0xa7e6a2a968a72;0xbef7229fa498a;0xd434868a9ffdd]]);
 ((V [0xec60ad73edd74;0xa2d3bbbd25357;0xfc95ca91a0ba3;0xb0c2656ecc0fd;0x5ae3aeb017fd9;0x346efd112eedf;0xf88f6dfdcfb2c;0x7734a1d80eb6e;0xf9c1224afb409;0x1135cceb600] [0x642352cd88340;0x9cdd624a892c2;0x6ab5cfcce57e6;0x87cbb559c560b;0x5f4c16f43a8fd;0x9c92bf9e9e2d9;0x8906d8f203202;0xccf199b614519;0xee3c488e28836;0x779dbe3bb11]),[[0x25df13faa6363;0xf31123b289c67;0x773ffd8e7cf3b;0x9432baf635019;0x6c624118e18f5;0x9b2632e7153cb;0x4ca058cbfa5af;0x772cbf0fca96e;0x6e1cd0740935;0x29343a52cba];[0x489d04ddb8574;0xebb8b9eb04d51;0x3c87589319452;0x9c186edc4451c;0xd9e17cab8c75f;0x89d3da828559e;0x9947a6e7f02c7;0xc761575793e5b;0x6c59533996ab9;0x23fd0b4b607];[0x0;0x6d751f481767f;0xddb2a58aa2786;0xb6f03ecf40857;0xe2905ceb564f7;0xdb3cd9f4fdd9;0x6cef6c8dd2640;0x99f3208ba6f39;0x70e8c8a47a002;0x27a9bd79bd96c;0x87eadaf706];[0x1;0x8bf724b90dcda;0x366efe5c3a5ca;0x1670538ead4d9;0x3b10d862c0158;0xaa0f813d1d38f;0xf758ebeaa8470;0x605976bd6ab4e;0x3d24c94c786e0;0x141e38c62b596;0x8d99c9beeac];[0x1;0xf13ebe24e4139;0x93da2f5b20289;0x52ab7dcfeb24f;0xe0749cb2ef19;0xb73a8340b9e5f;0xcd46a2742cb7d;0x16cce98bac55c;0x8656d7aa952b3;0x49ec813c79aa2;0x1ab1ea48e1e5];[0x0;0x4eca3fd1900ea;0x429841d243528;0xe3bb67942de0d;0x36dd83317815;0x4bd9af96a68e9;0xe0456c21d92d8;0xf9b73a38d9757;0xc3c527f50ae14;0x8781044716a9b;0x50d6a6f41ea55]]);
 ((V [0xc3a13fb48bf0b;0xe065050fa2bdb;0x9ece6567c641f;0xc57e6654143d6;0x672406a0e8339;0xb81b2d5d829d8;0x8a9385f0116d4;0xc6a467ab2787f;0xdf7fff9bd29ea;0x562d12f6602] [0x8c9ef628a1509;0x3e8dc2e3a5684;0x23d7f3cb4d9c3;0x9663c6ef9b49;0x56cbf18a1488a;0x80a8b35132279;0x86a08969f125b;0x562c427ad1604;0x3ee30a1682005;0x54d405680d9]),[[0x90c9cff1ce448;0xe0a4eaf001c39;0x6a60b0317099b;0x63d845f88a57d;0x967da7df55399;0x63beb87bb48b3;0x8235097321b19;0xc82a38e1aef53;0x4178b3490deb9;0x2d70eb000fa];[0xa0a80b9750525;0x5e93de8a0fbe4;0x1e880e3725bd1;0x77a276112ec72;0x6c4b6b7442c53;0x627f9b26bdc07;0x52272f203a463;0x2079667281993;0xae65b0ec5081a;0x771cd0e391b];[0x1;0x4b9e7d91e8b90;0xc9edf3025b09b;0xa6a48793e5b3b;0xab82b784d95c5;0xfa9db6d7aed3b;0x420d9f71ec4fe;0x20937bcfa412;0x58d6785d176e5;0x6274f49e2af4f;0xebe940bba2f];[0x1;0x6acd2ba949400;0x2beb489c28c00;0x1f20a9d9777e2;0x786a37a8dddde;0x1f6f6895e2c3a;0x9b0b9092d39e1;0x82da9392b4735;0xa1dd0d03c95f4;0x2e0c1d06b0e2f;0x275bef04f35a];[0x1;0xd317f54f17040;0xadefddd92df8a;0x851db7c438c2b;0x1120274db232;0x5c3fb58cb74bc;0x8b274b1f3804a;0xe8ca7fbd69c90;0x190fec22afd8b;0xd6722e94adcf6;0xe10f90c1460];[0x0;0x576ca907d2f40;0x3768d6c157487;0x787b5ea5e7c86;0x7f67554ba9e78;0x6243eff8c8d21;0x28cc8e4925d71;0xbc30151a8f70c;0x4c90cc3b40cb6;0xd2d39c066f32b;0x595de79e3cafb]]);
 ((V [0xd571ba272a38d;0x316edd9c8a0a1;0x2ada503efd8e8;0x8caf8ccddad7f;0xabd2235078ee1;0xa25799423f61;0x17747c12dce1c;0xf35ebdb9f3ee3;0x45817cf39efd7;0x538ecdde9c8] [0x81c07d2959913;0x60db268ba6b0c;0xfddd940ffa551;0xa448d9819e00d;0xc052ee2c638b3;0x4a468d0bb76f3;0x6f5550ae27c57;0x11d44c5645577;0x8427cfd4c3a2a;0x39939063865]),[[0x72ba0ceff31f3;0x4f5825832a3c1;0xe49b834324e4f;0xada8589ed337c;0x78134e37a9a2d;0x3869ae31f0928;0x7ba8b69753337;0x4f4126ed00219;0x277c208193b63;0x5ae04cf4112];[0x84b89cec27223;0xf10bc94a6f995;0x8096802f491a5;0x7d1921a6d6c18;0xc4a7c0c44a40e;0x825621360e34c;0x34c54a851fe73;0x14ad76be4dc55;0x8b0b2707ea392;0x59a7f11c784];[0x1;0x6f1fddc0c1869;0xe78f36f90a83;0xd67db91509acc;0x63b8f365811f0;0x18525433beafb;0xa33a7ed50dc57;0x80d6354439a43;0xdb5ff0ad4f371;0x8d68ba2b53b27;0x794b40de874];[0x1;0xcf2804dacb0b6;0x4af2eb5a782be;0xe889e182ab6ad;0x197738d47d8aa;0x75050913171e5;0x60497f09c3650;0x9be385dde847e;0x4da87679733d;0x669d73c965228;0x1a17c32fe4cf];[0x1;0xf23215f6cbf99;0x36c9013fd7836;0x8eddd0bc11a61;0xd01a27948e956;0x13cb3b01619ab;0x661ce5d38a5da;0x92aefb98811e2;0xe46d04214737;0x879693efe8513;0x1bf4cf251fd2];[0x0;0x715d90e2723f9;0x86f0e5b3d35d5;0xf71b4a4b6528a;0x7188a8a3b8f65;0xf2be32b5b38d8;0x60969fcd7f9f5;0x4f184d9e7aaa8;0x597f9f7f6332f;0x6d2e262345c96;0xb50086e89fc47]]);
 ((V [0x33991b62f1d6e;0xe8d04c06dd88;0x5bd2d294d1fd3;0xb510f2e2e0fb7;0xcef1a0e5a311c;0xfc4a3aa29887;0x9ae3abafde397;0x836679e96426d;0x222bad78b89b;0x5735a72a166] [0x64d8fc7e0dba7;0xbf011a17c254a;0x889c8070ef2c3;0x66117a7f2e977;0x3f28bcc8e7da5;0xb16f7a5205f37;0xfc351082cf2cc;0xcae82f38daea0;0x2a3f6f0f088ef;0x79dad9bd448]),[[0x9ba1a0f6e93eb;0x91b61672b9689;0xb9f2fd1c389c7;0xc31103429204a;0x5e22358e46580;0x220041f9a34b3;0x57dbea1fa46a5;0x888114cac8638;0x3e560bf50ff12;0x1074a6a483f];[0x77f917002a625;0x13bf27ebb4b0d;0x717893f5b8887;0xa9195d699431b;0xec099d18e055d;0x6558515efb608;0x2e8e5c8c02953;0xc5b924ff5f85d;0x997c611bd0c0f;0x3da6734e4a3];[0x1;0x40a16e56c3e99;0x15fe6b922382;0xc61186b67ad81;0xf21c58c9273c8;0xe4b26e5ac2537;0xb226eb474663f;0x6be1f417f7081;0xf89e63a2790e4;0xfb72a3946369a;0x44c1144dd06];[0x1;0xac725e87abfc2;0xea33942a3f4c3;0x114f8015c5703;0xe258896367326;0xbf8e4c538d6b7;0xb4ebe9e368182;0x6ec80f36c69c8;0x2b2866c7af975;0x664607ef8dc5c;0x16318de5c680];[0x1;0xd4cdb7c9053a9;0xf1149f87ea70;0x417d5b795db75;0x62415b0082ca3;0x6a9a7115aa176;0xee1d871678cb2;0xab3c8ab6be659;0xfd6de2b54bc7c;0x1f79b64b46ba2;0x1fa88f1d69ab];[0x0;0xb0c0dca3ae646;0x746915b7c9686;0xd9550b44f23a4;0xd6f662b58e9c;0x32116d4adc1e2;0xe2d0bbfa4c7a4;0x1b7aac7c5a48;0x525a1245fcf31;0xeef19b4061dc5;0x1f926cec4b670]]);
 ((V [0xa7bce92831d06;0xbe43cfa1049dd;0xafa70ae1a0270;0xb5581705e3798;0x8ea773c6a6990;0xa1fd204cc3263;0xb59b46ad9200b;0x967cedd7cfdf9;0x4c5db3b13c38b;0x2e33f9679ed] [0xf4b05478a8598;0x9c9bdbed61efb;0x7ccf82958a03e;0x9cf5850066e86;0x5298a2c91cc7f;0x917799b9130c6;0xfa32dfb352b25;0xed221fa4483d2;0x6d04db48402de;0x80162311da]),[[0x309a046a8e739;0x88370abcee2da;0xb563089d24d84;0x666836cd933d7;0xc402ad16faa5a;0xff103fe796cc3;0x3bbb98508d604;0x66727f405e148;0x990f9398cad54;0x71552950ea7];[0xf2cb1b100f0e2;0x4a94f872abca9;0x6a83d914f54b4;0x808e780bce277;0x7838bdf752303;0xdc060d2470081;0x6a03f8f7e3065;0xc5cd1894c1631;0x36fd10456462f;0x5fab1d0efbe];[0x1;0xa2fa126afcd04;0xfc179c571a3f2;0x215bc5c32718d;0x6aa8540d1a1b0;0x50818cbc38a;0x82b628fa4f565;0xbe2ea55f9497f;0x1cfe2a0baf45a;0x1c958d0871030;0x83eb3463783];[0x1;0x6d0685fe0597e;0x7b663209f71d3;0x4c6184ee146;0x9f422aa3f7cdf;0xce5d2cd269f8d;0xd7f9110437972;0xadac598dc1905;0x9ac36b28d0ce2;0x1e9846506dd2b;0x1663a2094478];[0x1;0x4f4d62abde921;0xe658827d4cdba;0x439d1339ae578;0x687268f1942cf;0xa33f6af1ba4d4;0x35e4ced4cc9f6;0xb43ccce391820;0xfce901024ec8a;0xdfd9bf113cabb;0x154e5f9dbcc5];[0x0;0xe0443cadca091;0x7da492e0312eb;0xab45fb197a987;0xf4fd753b20c6b;0xa26720e96c1fe;0xc2fdb9e75f2b9;0xc1844b54d9858;0x1b82a0ec27741;0x7ec7234a12eda;0xe23c3e17089fc]]);
 ((V [0xa1034694e9978;0x86bbdd8d6531d;0x771d8e4599836;0x6023db3f97e49;0xed95f4d99f3d4;0x585207b324870;0x3b0ed3d6a0c44;0xe52a40e1cf29;0xd74c691607d33;0x4f032ae0342] [0xc592d72d088b8;0x5077ad7d34309;0x8c6dde511ec65;0x82eef81fc6d93;0x3c249241954c4;0x8dc6ab3de6bbc;0xe4c887ad3c7e6;0xeb756b89dee43;0xd279e1be0e3c5;0x7e830c756ac]),[[0x8096b8a95e891;0xc16eed1c9b70b;0xa872c3142ddca;0xedb9c06b240b;0x10142e4e2ef08;0x8168e253087cc;0xc6c2a953f8a9b;0x3df00b5f19d20;0x34e7ca822207f;0x2eb5bc4fc47];[0x8dd4d247314c;0xdeb03138338a7;0x36f324f28a229;0xe826017a2985e;0x4f6f54e1b6fdd;0xa435587d38061;0xfe9ecbdb9c527;0x13a92129241de;0x37fc48ff94998;0x1cb21acb314];[0x1;0xbe3a890014fe4;0xaed417bd385a2;0xb82a94831f06b;0x8ea40f4d0e1fa;0xeccbead6b0ae8;0x243b848bf54c2;0x4b505795660ca;0x356ffc1ff1b92;0x605efad7b4212;0x28b6c53943d];[0x1;0x4de77f350bb30;0x55ff3a782ccfc;0x60b007c72782f;0xbf6ba51cd4bc8;0x63c76bf8038ff;0x1a9a1781c3136;0x567a75bf03ebe;0xc8a1e37fc6200;0x5185faa16c872;0xa654e6b81ca];[0x1;0xbaba8fbacd191;0x3018474fa4e93;0x578db1a2dbc;0x96fcaedff8ea4;0xaf246a5ad3995;0x64f43a0f51dd9;0x9ff5c86b43213;0x559c624517441;0x907ae1b4768b4;0x145ca99fde7d];[0x0;0x594380bd72903;0x9aa134f244902;0x5a0424abf3af;0xa7e4974fc57ca;0xe5bf66a04be88;0x70fc8ba2064a2;0x3f268268147fb;0xb4fb7147b8d18;0x4d3e5a52c08d6;0x5c812c73838d1]]);
 ((V [0x9669cf717c31c;0x39f7154722f92;0x79efd747c453b;0xc3cf0eb9f1998;0xe36744d5ab755;0x7902f9927e4d1;0xc2bd66e0489ac;0x82cb0ae39cace;0xd92afe4d0985;0x7122246022b] [0x8104cd23f34b2;0x8cdc1dd9ecf8d;0x984eff87f4c82;0x1ab890dfa63e9;0xde90a6c665d58;0xca39edf9cb83;0x9a0d88bc0b68;0xcca968fe9605f;0xf5e3c7d533220;0x5d108f51fc7]),[[0xdf97166af185d;0xae4a19d529744;0x4612d3f5323fa;0x1e7393a86299d;0x760759ff3d8e4;0x76a9f588e1dda;0xa5ed84fccdb2b;0xb7fc63c552731;0xe6392ee28062d;0x3a073f8779b];[0x306776cdbcd4d;0xf890ae7483703;0x2c0835d03510d;0x88457f7eb2fa9;0x6ea8fad5178ec;0xc11cd707dbcff;0xb0a907610a1ed;0x39874e7d9c733;0xb5152d0681135;0x371c029c9ab];[0x1;0xa198f82ba8440;0xf033988757303;0x801f6f40d5681;0x2944a3b94573e;0x6fcc79d62a93d;0x12e248659344d;0xc4e6fe315df64;0x8ed68166f1843;0xf696a830e31ef;0x3d721c38642];[0x1;0x225e77c702b0;0xedcf8af2383ec;0xbe898fa87817e;0x98a645e544b15;0xd2f83aae3fa83;0x5868134bc8070;0xa4ee438ead5b8;0x449a6c52362bd;0x85359e4a0e5ce;0xd7f2f8770d6];[0x1;0x7fa6bc30cc2b9;0x3a540b41042f9;0xb0e3a65d41cf1;0xb1a0a53a1d9d;0x59a9eb99cdf26;0xdd635d97b5886;0xaee0dcf964c99;0xacb51eddaeb10;0x9bf258acbfa0d;0x2040262453d6];[0x0;0x67415c914a7b1;0x904584de8a033;0x47b129b41560d;0x87ef413e86851;0x690aca5273a3e;0x381e55be03e4;0x85ab8b01ffe85;0xcc0b2b24a2893;0xdc45a69cdb630;0x7281e71f3d2ee]]);
 ((V [0xf53206fdeeb12;0xaab1d7c1407be;0x7f5e506338064;0x1cc772ab059da;0xf08dffa9d5188;0x79836587a5dd1;0x2881a47dbabc7;0x5cb228a78345f;0x52192124ce1dc;0x2d7b3b9ecdf] [0x1828292b09d76;0x7d3537dd5355d;0xe8c1b31a7ecae;0xbfd7579c662b0;0x387902f611329;0xd44e26a013bcc;0x4b6c1296e3978;0x5d401a349adbe;0xc719062360be7;0x60f70e8c762]),[[0x56573cdbce13b;0x33d5e9e7818b9;0x8f8ab14017b35;0x32c3d521c38ba;0xe8fe63c4c5554;0x719cdc4ce4faa;0x71d985dbb9e16;0xb491912649705;0xcf5338053d699;0x7a66d161fdc];[0x50bcdf69be942;0xf1b261e0cb492;0xf2d3d54908098;0x7b2c148e4c9d1;0xf2d9d56cccd89;0xab6111adc15bc;0x18794229c98c2;0xbcc9e04f61f1;0x10a66e52d034;0x40d69d76a13];[0x1;0x838ac4cb9210;0x6354ccc5e9882;0xbbb563a2b8fed;0x139d77f2668e0;0x87086824c2d17;0x9a5bb411cfc10;0x1438a64059b4a;0x70bc984af4cd;0x7183207f9ab6d;0x1daee99827b];[0x1;0x3c32b8254df4c;0x2347531f1b330;0x985cbb0babd3f;0xc80e1613076c5;0x239556a1ea72c;0xf131ddd0ab7f2;0xf547ce5ec7562;0x376746fcb7a60;0x2b88b3deac183;0xd30a9cb680f];[0x1;0x24c34d89f8f89;0x8b92b263f9e97;0xa034481100d88;0x37e5665c05165;0x6990cbcb2705c;0x16339c9cbdf66;0xf29d9a5327f63;0x765851fec0e10;0x29e9347c407c;0x1aa72b704503];[0x0;0x9b8e544b2d2cd;0x6589f478f57fa;0x3a0414bb22045;0xc54803c6b9b45;0x189678990dcde;0x97db79de1ae9d;0x7fe4ff4d62497;0xea6f33a3aa434;0xe77b4f733acca;0xf40cabc724c3d]]);
 ((V [0x41f522669698c;0x7e00581b933f2;0xa039610d08169;0x5a972abe45122;0x99b55f85ab6a3;0x11f494d6d4c91;0xec16737d527ca;0xd885ef8cee425;0x6c42953fa27dd;0x6b212ee6044] [0x9f0cf10ed3506;0x610d5bdce67f9;0x4abe3135cd9d3;0xb77c31779bdc8;0x6ea9ca846c2c;0x753365f122210;0x53eac17cd1295;0x4e6ce0e6e8640;0x8aae560c3781e;0x3a81f94e8c3]),[[0xefa3fcb0921f2;0xd0a3e2ff5123b;0x1d00fe97dc76b;0xe3f785e1e535f;0x7a433c23760b6;0xf309e41ac7494;0x58b7d6cfdc1e1;0x9026ea4380d2d;0x7cfe49fc783e;0x6fece8778c3];[0x9210dbd8c6edb;0x1047ee3473a45;0xd67b009f04d2e;0x9eecc5eb6106e;0x3cf322ab3a530;0xe87bae731f074;0x5624deba8e1fe;0xcaa79d7b94b94;0x4f9d247b17656;0x1508601f4cc];[0x1;0xc790f14679f04;0xaf7be62e8ae91;0x496475a0ca64c;0x44efa0180d1b7;0x2a2ea450f5c;0x5ff7b2fb45680;0x6cef819fe4557;0x1400c89a4af21;0x9a099a4723a6;0x19e7a3ae3fc];[0x0;0x254dadfe62e68;0x4fea417acfb0d;0xe0cecdbd76dcd;0x1dcf77c9d6fb0;0x882e71629cd2e;0xbfb27551c7736;0x96c937cbc347b;0x9704cf91944b7;0xd1df67389b61e;0x2b612bba2ac];[0x1;0xf7846df3f6284;0x2b00d0aa5fdfc;0xf0af0655a476f;0x851c7b9ca43b3;0xf98f2ddb5fc73;0x3180c679671b2;0x2f5e90d18e4af;0xfb2ca81fe3b7f;0x7372df658cad5;0x12a50b29d0a3];[0x0;0xf730de2d63806;0xb196be05d615c;0x9bb84b2c39da3;0xf07de52dd6141;0xa59ee61e69101;0xa8f921ba2cfd3;0x482f4490cfff;0x7d6ae65400132;0xb33f6f9d19fbb;0xdedce3c4f33f3]]);
 ((V [0x7a2e41615f50b;0xc26c7029a78d7;0xf787c93d520a3;0x382679a6c5309;0x9664d3d667d02;0x8b49dbc4ad4d9;0x9c0a4edc4131e;0x46db4cd48ffc2;0x69fd8d6d6ea1e;0x6bdccb822e1] [0x6248674751187;0x72df1ce3b104e;0x2240c2cdd9a9;0xd164ea6239356;0xabfc70e186e0e;0x1079e1f4c9434;0x29deeffe3afbe;0x5dba2a388e47;0x46ee3d80e0a81;0x40aafd6c4f1]),[[0xea4a294e37fbb;0xe996de2598dc3;0x485fbbb37fb1f;0x4c847de085f64;0xc23c01a17e8ce;0xfbb9325e08dc4;0x109b9a06700fe;0x122ae22124d51;0xe5554ccdbd8e3;0x87fc23f925];[0xb7cb7846cd655;0x26c0323e0b6c0;0x8f8a993403a06;0xe6b593cc41724;0xaed71629f4d76;0xb375f230a04ca;0x7dc50d85fda2d;0x6fc97e822ba76;0xca5a1aaf31d0a;0xd197ba15d4];[0x0;0x773487af54c70;0x81b696de65930;0xaa7ebe569d0e9;0xcc937b38d06b1;0x200ff4325ddda;0xbdbb83c145191;0x5eab57d577201;0x7b89680cc6d3a;0x62999234289d2;0x3f768bc0145];[0x1;0xf2b0981076484;0x1f9f75ecab5c4;0xb84b5b4786fbc;0x1079b103d6c9d;0xfe29089596ff2;0x7c644ae058e6f;0xe3224a223e608;0x6a831402f71bb;0x4bf8e864ac21;0x46d3db1f8cf];[0x1;0xc192a983d6e89;0xf8f7275aebae0;0x52149c2624157;0xb0d89d0f50a81;0x81189318b26a;0xaf7c62838ce64;0x763d71c7172c8;0x1851ddf9678a0;0xd3f3a60cfefb2;0x283addacfde0];[0x0;0x7125a29a2b7b0;0xe31b9a440efdb;0x7d46f89be4906;0xccb7bdf6c9ec4;0x54f8ccbfcde61;0xf7b2dec82f55c;0x3d23777c798fe;0x441ab7f74c627;0x6044350aa4a95;0x10119ddee2bc5]]);
 ((V [0xdd33ab32f8783;0x1ee92496dd8b4;0x603bdd70c25e;0x494a90a22cbc9;0xc469ebbd60481;0xbd816fe6e698f;0xa779c408a91b3;0xa6ae6bf18b24e;0xdde2c40c25f43;0x2e7c098791d] [0x18329ab273f80;0x9b9a40f9dc8b1;0xc2b5dfa437291;0xc54de9c9e298b;0xc120fc98d5696;0xa4edccf0ea9a8;0xd92baad65dac8;0x854f345717a64;0x5a20dc51e35a6;0x341317dd80]),[[0x895b47d2f90ed;0x77b89dd71b264;0x8bf1dc28724fa;0xdac06b64e5c5c;0x2116b3b7f655c;0xe3fb0d32e0c29;0x8dac057f1689e;0x32d500003dc96;0xfb1e7c3e4e8d9;0xce1142ecd];[0xbc21f9f77bcaf;0x2fb9dfc9396c;0x5d4fb941c2ae2;0xac15a60ebc70b;0x5438b000a028b;0xdbda4e21d865b;0x64d14a99e3d81;0x8a2e3cdb2d000;0x8eae1ce801304;0x24bdca82589];[0x0;0xd8d1d0b8d8397;0xb30f4dec326c8;0xdc47ae87cf187;0x1c938f96c3221;0x728c2f74f4791;0xa354982d58ba2;0x4fca338235034;0xf9e3ca0f4f762;0x9d9d5d5226cef;0x11690c15c6e];[0x1;0xcc240c742c596;0x6f06b06a61bdd;0x897039b6b9fe6;0xcc7ca40197502;0xbe114a1199878;0x8f19b4e80090d;0x5aa520d48619b;0x44e9d464691b4;0x84cc57220ba3e;0xdba2873d53f];[0x1;0xbd3c975aa8259;0x5ffdf5dde2994;0x7faa5497563b6;0xbf48cbfecbeff;0xa8bcbaded2466;0x279c08234c989;0xd74aed949ddce;0x9e955278c78ec;0x7e1cdd2967032;0x20c69f5584a5];[0x0;0x62221d94c9685;0x754977c796b77;0xe62817600de90;0x721a2f5c390fb;0x16509d7664476;0xf41c5b9af41ae;0x273d89652d31c;0x3b67027fb82cd;0xfc2630d8b06b4;0x1157b09477e9]]);
 ((V [0x778f442583a07;0xcedde4da7586e;0xc1be47291a017;0x3a883e71db5d9;0x348e08648febf;0x7a46d1b6c34f9;0x96ee83b7446e1;0x4743119670ad3;0x15c52b389ef27;0x538aee6e428] [0x622b43cf6578;0x400b36a9c824b;0x932609388ad87;0x6a68be090042e;0x67a11da08a8fc;0x9c80b89b562ae;0xe3d2163da3297;0xfeeeefdbc9d91;0x294724a719f61;0x472b35baf81]),[[0x403d9aab5d3c3;0xded1dad208c69;0x14142aa0952cc;0x9a095682cf3ed;0x4dbec324098f3;0x5e2977094fad;0x3131addad13c3;0x47beae9395c6e;0xb0be7f02bf1e1;0x2cf08f29452];[0x154928af9c976;0x94459b249fd8a;0x27cbec89259d5;0xe681852d42ab6;0x1d7b7063d2ac0;0x4e1dffc3e6502;0x4f66fadc59688;0x2cc144c98c5e9;0xb27bf9fbf1cf2;0x39941027d62];[0x1;0x85110dcddc9f9;0x730b354a7ac6c;0xfebf8465735fb;0x895b9a4c5ae39;0x7f7bf0578d03a;0x918ab37d91376;0x2d59e249903d8;0x421234f31d8cf;0xe99d771bc0270;0x62468143c41];[0x1;0xb2d6b5bb76d00;0x67253a374b100;0x90d22466bfc58;0xe4c7393d15153;0x721b693370c2e;0xc4fdf6a2ade83;0xd16db1fea6b2f;0x15665cc60e2a8;0x79ce5ac25f2b5;0x1572f532724b];[0x1;0x9c06c730e0b79;0x61324cce1dd2c;0x3fc863667ab0f;0xc050b6aa008df;0x4eff70925f676;0x85a243d2189c4;0x9ac043619fa51;0x1ea51f6355bfb;0xaf3dfabac2bbf;0x1513edc74f20];[0x0;0xea4122571098f;0xbd6b3f06fd5a;0x96a811597734c;0x73606c7ec5fc6;0x60d98a16a35b1;0x96cf0d67420e5;0x8643f211f263c;0x58a3ce5dc52f3;0x97fcb7f49d389;0x596c334f32e74]]);
 ((V [0x5a2b7d756eb7;0xc3337ebbc7db5;0x72532484654d5;0xb74e83ca3cdd9;0x14e22e746ccea;0x15afae49c6e68;0xc03bbd46a652a;0x7549fad35e0ec;0x80313bf9551ea;0x1581ce3867c] [0xdc228490d2b5e;0x620838114efde;0x297ec33eb3d2d;0xdcde9d08656d0;0x6035a64cd6507;0x5a4ab7be20255;0xc870edb2eaaf4;0xb681498d38be3;0xbff6d74cd3d9d;0xe97885a106]),[[0xf6295a7c0cb9e;0x35d0e4a29fdb1;0x5b092551fad81;0xe461d5c6d8515;0x64d74f46bbd57;0x844c231dde7f8;0xdeb97377392f0;0xa885654c3a606;0xcc408aa632b1;0x702364042be];[0x8874ad7661ce6;0xa56fca775d6d7;0x1bf640c715082;0x425f0d9621e97;0x376a5b543097c;0x72358c1abe29e;0x344c9b5b630ff;0x97eca59fb2e3a;0xa5965587b7c80;0x4f72afe1ddf];[0x1;0x3615ab4eb52a1;0x5a6fb3128b3fe;0x65114fd60abe2;0x10854f44c8c72;0xbe0f3341a63a9;0x1b0d0acc268dc;0x15836ed051d24;0x69e05322a195f;0x321d4dd94d1af;0x685e9bc0e3d];[0x1;0x269e40f40be20;0xcbbea25f2df60;0xcd0d46e8a3000;0x839c54c5e992a;0x2be410f9f53d5;0x4ff8e4e8bc3e3;0xca441bb669e21;0x3d29abdd59310;0xb68ab2b4917b9;0x15ffd266a780];[0x1;0x4df7d0faf6344;0x58e9278bf87ca;0xca3fa30381dd1;0x97361e9b65cb6;0x293239cf2ab9e;0x477a4096aa50a;0xdd242ca0e0066;0x88fb151ef35cb;0xd8e5f9b278423;0x116f15d598c5];[0x0;0xcf9c59f07c23e;0x5be2df9be50a5;0xc4b32b306b9e1;0xa48f15937cf3d;0x80fe1893d65f;0xfef8193fb04a9;0x3fb68a5fa6e75;0xd0d7156f3b1c3;0xf3ab3c18fee07;0xe041bf1358f14]]);
 ((V [0xd64740f6fdc48;0xe3c3a701b1b84;0x7cd03161876a1;0x3bc58cb648af3;0x4a6eb61ef145;0xda7a140df00b2;0x2f996aa0fd67;0xe7ccfc88579d;0xcd6a8ef774f46;0x7107af1063c] [0xee5e73387371a;0x7b6fd898607f2;0xf4fc3d7dd5feb;0x6ae1e660a35e4;0x7d3759556e7ca;0x5b5e6b7ef24a0;0xf626a695cb930;0xe2e18a8027503;0xc8d995f0d2bf9;0x3d9f91fba6]),[[0x596f8b7547409;0xc20f8c4fbf496;0x4bfd43e327ba8;0xfbf1de57056d8;0xdc5325d536aa3;0x29a8fc00dda65;0x96b84ce39f5ba;0x75878e703cbc3;0x89d9b8312d270;0x59aa83f6368];[0x645977e7c3c78;0xcd68755619b1f;0x4df95710be49c;0x95e7d67c265fd;0x50734edc1f1ed;0xe0b3b94d8db3a;0x229c87923693e;0x845f887b6e1c2;0xa50c88116a50b;0x5f6b145c3a7];[0x1;0x5b226225e3341;0xbfa9bf4d7379a;0xfb6f585b2d77a;0x2ebcd29045e1f;0xc5738caccf995;0x9808b68120c08;0xf3e483f137cf7;0x553e1862dee0c;0x82a816672c2cf;0xbb390d6afcf];[0x1;0x479fbd6aadcdc;0x14c638ce1ae40;0xb953df9119141;0x2b625a5946ad7;0x213a3d710e0f5;0x25a06df4625d6;0x8e4e5ddd29bc;0xa8e0bb97433e2;0xa1d73aceb67f;0x22810dff3a2d];[0x1;0x3e62226b2bcc1;0xa30b977a63ceb;0x85f3b772a0cf;0x7bfc6d6f3c7fe;0x9a1806504cadc;0x7c3436b353831;0xe7415367eb0f3;0x59c323daa5d04;0x712589ef59abd;0xf9469458f4d];[0x0;0xf8c682865f812;0xd5d4d177221a8;0xf99f219b836b9;0x7ed05c284a143;0xfb106d5d82c4c;0xa113a7b3fa3a0;0x91be7167d689c;0x43a31dc3fe8df;0x5543c8e555baf;0xb349b26aefd59]])]
 [[0x4413e4a78c6a9;0xff306246ba8c8;0xa6255c287b745;0xf6ec215326664;0x9a83cdb778339;0x44117b502249c;0x8b2f35f292e39;0xce1337f810c90;0x2ffb72cb69adb;0x59d01837c73];[0x51ed7127826da;0xa1d536811f56d;0x6ce13c277debf;0x6b42656063d51;0xb03c25954085e;0x3b5909758e3eb;0x394d74af182cb;0x43ef068803939;0x15ea9dd3e8a3c;0x477109bc4d4];[0x1;0x21b430424f040;0xc984179a36eca;0x6b8dd25363475;0xa86c0e6f97a57;0x6299c30fee24d;0xab31496ea7ea7;0x851594b2c7aa5;0x1b231cd00237a;0x354ec9d387e93;0x2b1281e9951];[0x1;0x7c50fbb147114;0x84d0b7783133c;0x33a0b10edbe0;0x73dfa05954708;0xeccb977af0866;0xb59565336dfcd;0xe8eb6851b7d65;0x7a141c4f00122;0x90cbff6e06f3;0x1a73e961af07];[0x1;0xa32867b461c01;0x1a5971585b5bc;0xb7f9977bb22c4;0x23c5460f79444;0xbea6898b11ae4;0x665eb4d44dc25;0x46854969b2137;0xcfa5cb69ce212;0x94de076491bdf;0x1cd46b49d863];[0x0;0xb86422d24809d;0x75425b1dc5cf1;0x357d8c8982e3d;0x8fe716635e4af;0x524e7ca78255;0x98230cfa55aff;0x111d0f5a65c6b;0xc331fea30cc36;0xc5b1d22f746d8;0xb3bfb5325a224]].
Definition wit_512B_64_8 : colwit ipt wit := mk_colwit (V [0x380a1f76e551b;0x885a9b7c24be8;0xf602258c7874d;0xbc792bfa6bb37;0xccc73a2ab1bcf;0x1b135e9472d3b;0xae7f45db6c8b3;0x7eb04eb82a2d2;0x30c21d025cc0a;0x54eac3ea795] [0x803d367a5baea;0x3c43cd7d36a10;0x916e37510fb0f;0xf06af9d77f2f5;0x158a4bef391e7;0xb6d6bf5c29a99;0x643175742e3d;0x4c5ccbfa8432c;0xbf8c608e583e9;0x4032b794d86])
 [[0x4b6387c1e8ff8;0x89d414089acf5;0xcaf8900bc4172;0x51c902c68f4c2;0x42197ea2f4771;0xf9850dcbcf1b1;0x9df452dff8b34;0xc0fb45feb2399;0x11b68d64b77b;0x3f71f9e31ce];[0xa266e31638c65;0xaf5f03ef5c8f1;0x636c11d70cf3c;0xe0d7498aac81c;0xe5b01fa272347;0x99ebda73c7629;0xc6a7672257d43;0xb022ddd5ef369;0xb9209eced3415;0x9ecd60bcd1];[0x1;0x60ee51fb68810;0x6daa070cec6ac;0xcd5fadba9d4f4;0xcfe120813798c;0xfbd1518179950;0x76f838afdd294;0x59bb9d13fb140;0x9c1f930f992f0;0xff90c0d0c55e9;0x9ad17b8ee7];[0x1;0xad1e939011e30;0xa54aff2ea025c;0x9c871595b00b4;0x4550f6617404a;0xd904f2d80a458;0x4836f2025fbdd;0xfa0b69f35f559;0x32959e84fa8e8;0xaaacaee4e109;0x7b6e8e9e34];[0x1;0x9ef5199cf5c40;0xed55836c80b05;0x602622a75fa40;0xf1a5106218f40;0x622237bd9159e;0x782b8ed714b6a;0x77fd566dbedce;0x87d606d7c3d59;0xdeb1487e69e79;0x11abc490cc92];[0x0;0xa6c0155b6d580;0x298d7b0b182d3;0x1a52c2d7fd7ea;0x12e823b353d09;0x4f8e48a755ebc;0x6de46f80baef8;0x6217ad4b390e9;0x1103d0146976f;0x50a4ffd1303b9;0x7e2237fe5831d]]
 [[[0x579cad895a5e2;0xecb9b8f4d21db;0x2968da10181b0;0x7df25d1097713;0x43d8ad74db1a5;0xefb385108fc5b;0x37d5a36e76e35;0xf048f7bfb3617;0x77b0c24c9fbc7;0x2b629ad931];[0x1;0x4f2bff34fecdc;0x1a0c3c8e850c6;0x59076d168398f;0xb164206b002d7;0x877afbf5bd0ef;0xdd0bfcf7a46d9;0x2bba9eec215d8;0x25556d8f66e2;0xcc4a1d5cfc8b;0xfba7bed0f220d;0x1];[0x1;0xfe8406ef32944;0x544741d54d63b;0x98ec4aee45cda;0x91455af669094;0x820269ab6b690;0x5bf9e4e08f1f4;0x840ccb07a20a;0xf501271080909;0x93fc1abd10430;0x16fbcf7a9234];[0x0;0xc1e07434fcde;0xd5b571934d1ac;0x17a3967e14b87;0xd8e513eea7060;0x85c9d27fe03c4;0xcbe5f0c9dc3aa;0x2b89362921df;0xb751810f80c45;0x9b8e8a6bc0f8b;0x4652e1c9b923]];
 [[0xe2c7e4d818d48;0x4db7c40974cf6;0x9ff3a3b9b440e;0xdc11ebde38837;0xcd384576ba9e;0xc7201feca05e7;0x7d7113fb0f4b9;0x2111c618c666;0x8f0dda7ebf815;0x54f2cae7c52];[0x1;0xb9f9ac7e30b80;0x6c0f673801a2d;0x8e5c55fc43025;0x4bea0b9aa47da;0xa4ff5909be658;0x26befcbbadbee;0xcc35c2cb85dc9;0x5562a0870f718;0xc84b7bd042e9b;0x5696895a84fbb;0x1];[0x1;0x1bd1614c08040;0x985062b1dfab3;0x7d8b1b6c60bc5;0xb1e5864b990c4;0xab368fa3f1de7;0x23cb379ccdb82;0xc7ac2323e3a2d;0x415942688e43e;0xa19e9336ad121;0x1868bcfa880b];[0x0;0x3c6e3fb126358;0x52eeef5298025;0xcc423ca1d7e09;0xe37bb866155f1;0x22c15cd7860d4;0xf8ae70cd697c0;0x337d2cd0597a6;0x3b6a46eb7ae89;0x601c282c005ad;0xa8a34961e5172]];
 [[0xfdbfdee19747d;0x1eb7deba54146;0xa01501f1ede3c;0x21367c1eed12a;0xa8cc91c699562;0x289387c71052a;0x3fa82c43b8405;0x7cc0abf63cae;0x4be2d11d8d58d;0x85048f1c31];[0x1;0x701d456504306;0xdf5018b4b3ca7;0x220d80432d107;0x467ecb63a7cd4;0x1315d50daad5d;0x1edae7683fe17;0xd9d746c8b0362;0x91c121028a28;0x155caea36baf1;0xefe8d7298fcb9;0x1];[0x1;0xabe60693661f9;0xe4a108b1a0282;0xdfb03740a1999;0xf280d4d0896cc;0x2033d6866aee;0xcead84327dbb7;0x10d46ea29fc1e;0xdc1de33e188a3;0x9e79e130cd68d;0x1b985ee9f12e];[0x0;0xbef6d38ba5e25;0xb0571d8dff0a3;0x149cb36dea76f;0x4edb0f587a605;0xd91b11bdd65fb;0x6d66ac9d3fa6;0xf62e69d34ef51;0x60d1a35731736;0x37fb60522d887;0xf67eb58ab3fe]];
 [[0xcd0c848403688;0x15aff61af1bf7;0xa4e1fd49921bd;0xd189d5e19a91d;0xf4f1010c44dd;0xe0154698f5e85;0xfb9b2382591d3;0x39c2a211c072d;0x1857a6fb0cbb9;0x432ea50d89a];[0x1;0x14772e150a8b0;0x2f78f6fcc5a6a;0xc8f27d289c8c4;0x667504f4b76f8;0xa27a7f5539113;0xb7793e8b3f4a3;0x7ae6a2d011388;0x35e594d10b03a;0x979afc39e477a;0x7a7f35afad050;0x1];[0x1;0xf392f4e78440;0x396d56bfbfd8;0x8ea3da15a5fce;0xb21ea49c8bb43;0xf348e9e5a4b4a;0xa53119016ee29;0x6de945f1a62c4;0x4c1b38779a355;0x9f14b5aff6a45;0x10e2f7835f1d];[0x0;0xf2b7e773b5730;0x1f3c2844114a5;0x1857dc5c9be6;0x3fc14b4fce6ec;0xc68601579cf28;0x85e82d0ec7e0d;0xfe32591c6c6c8;0xca5547aa82f6f;0xe5fecae6183b1;0x85a0b7f4d1ab4]];
 [[0x4bd22912df299;0x3c204149dcfb9;0xa22c274c394ab;0x48e632f987328;0xbf92ccf92f1b5;0xc44f48e3b1d51;0x376cc6e8f2a04;0xff796bcf3b8a2;0x641810b39daad;0x7c2f2aa70e2];[0x1;0xfffcb35c8dc49;0xc00a5c303050b;0x979cc239a0089;0x504ac435f0c98;0x6172a3465008d;0xd2abd797cf9b2;0x498d45dcbd1b;0x48dba468e0f0f;0xcc4d81297e2c3;0x792dcebd50db;0x1];[0x1;0x92881d55171e1;0x60606b70715ba;0x9d6a7feaf7c39;0xa657da9b27cdb;0x3df72ddf5b070;0xd316a4a8f0b51;0x3cf5ce0818c68;0xe436407365ed;0x9818c0613f74;0xba8d997e79b];[0x0;0xdb272f25214e3;0xb429a084a70e3;0x51fdfc872d670;0x6cd3536afe4b4;0xc36c72e458867;0x88f12685a5160;0x787eb09707dbf;0xb891e62f4ca88;0xf3e6de800f902;0xf7d9baaa388e9]];
 [[0xd1d82ca78e810;0x18a48fd4a3568;0xea90b5f04e3a9;0xb029633c9d3ab;0xefacdcba2b173;0x708b4a0c7b4cd;0xf721ffcad5d04;0x2ead729c7b6a4;0x1365f215f3d15;0x1116e4d7740];[0x1;0x73915ad8f7d70;0x1efcc318761da;0x9d74a7cb62022;0x62bc1508dbae2;0xbecb077d2d494;0xd5b1de7275b94;0xd469b9c39400a;0xb9d3aa8900e4;0xdd7dbdf77707d;0xdf39a2429da00;0x1];[0x1;0x79e589dae7100;0x29b35601e3ed7;0x12f498bb35373;0x5e7ebd03ebd3d;0xe70d926cd6f27;0x27cfd1078b1ea;0xc7c865eee29a8;0x9ea9181da1e5c;0xb44bda6c7fa0a;0x204ac7181146];[0x0;0xf4a1a8558b8f0;0xd2207dcc6443b;0xc7170b8bbe54c;0x7d7410a659c70;0xba06a54fea954;0x298f525405107;0xe4c5d4d076f20;0x2d772a514c395;0x3df3dfe8b82b1;0x22280da9bea2d]];
 [[0x52247552972ba;0xdea893053147a;0xf25abb7c01e5e;0xef0be770b2955;0x177e464bd694;0x7de5125415018;0xdf68fb15fa61f;0xd8f3da7e0a554;0xa936262655e2a;0x3ad49119991];[0x1;0x7ce29a8fd1b0a;0xbfe0679630425;0x919a8aeeace9e;0x4f45ba73c17a5;0xc5457dabe36b3;0xf3137b1cc27bc;0x3d7c7b5ec305a;0x8903dd67ac453;0xca9819fe07fa2;0x8b9e5468bf8a0;0x1];[0x1;0x8f0cacc3072e4;0xbf8f48196aa07;0xf77c7986ec1a6;0xb0a1e2df8aad4;0x9026a9ffdad15;0x5d203d4ee62e5;0x751bad7070683;0xade163e231c22;0xb498e19c0d26a;0x1fc262d652ef];[0x0;0xbf045349112ae;0x4f6c29298feb;0xc6001be1cd18a;0xc42072ebc8132;0xea7ea944dcc78;0xb6a920fef233f;0x79fed8bce0028;0x8513da1238d0d;0xd2c89fe93661e;0x756f9194ee2ba]];
 [[0x8323d7bfe3ddf;0x590cb582d2618;0xc3288b3f02cea;0x1064081522c7d;0x2c231432c4999;0x16e04dd3d55d9;0x10adecf0efb27;0xaab2a8d829cc9;0x7a3d69efe2b6;0x56107a20e4b];[0x1;0x41501777a5319;0xe4fcccfaadc5b;0x724fad21ca55;0x80922ce6e9f3a;0xa6cdefd094775;0x519367feabc0b;0xc1b89be2b35c5;0xb4a4e07f55b6e;0xeab77c66f3255;0x54817dae31375;0x1];[0x1;0x62c11ef9285b1;0x81d65fd9ffd10;0xaf8fb0bb25152;0x87b28166c0ce1;0x877163d40c7ce;0x168eca3dc555f;0xfe813ec7e23f0;0xf1ab27e30e894;0x3371dfe0f67c5;0x19ec38f67752];[0x0;0x78dccb6cc3dfb;0x180f910cbff92;0xa52a45afa39bf;0xac427e77f9db9;0x1d95c323a8cc7;0x1d141fe47f6ae;0x9e0d05fe018d0;0xd81debd58277e;0xd28d7bfdbbbaa;0xab8e17bef49f7]];
 [[0xf511939966105;0x802f8bfb2d91f;0x6a2fc78fd6635;0x39db2832a33c3;0xfec4ca411b309;0x18a16748d5d1;0xc5f47c9cc8616;0xa5d889d0b6413;0x7c226e94d4dd2;0x6eceb521dc8];[0x1;0xea0240425ea2f;0x9382f11be7dde;0x6a1de29c73c75;0xddae5cdae48c4;0x9b5de0ed9403d;0x22d80d2533073;0xbd3f5740fecba;0x209dce482942e;0xaf48297d678;0x230eaf857ee55;0x1];[0x1;0x962318c88ee09;0x72cbf767df4fc;0xc96a5b45cf67c;0x9e24848838471;0x31935cf3ab90b;0xaa7546447c4a0;0xcac03dd8045ea;0xa27816c7b0a;0x5d8e39c87dbbc;0x1561a8deb693];[0x0;0x396acbd333eb5;0xbcca5a016b0cf;0x9151e79310b57;0x46d5c1b0d44d0;0xcd97a85e0d30a;0x828314d4106c4;0x44e2a2194c94e;0x409631fc15b36;0x41765ea36255e;0xdce802b5b128d]];
 [[0x50a91fa750706;0x9fabf03f19343;0x545824f0a69f0;0xc29275a0ae6e2;0x48993e0f6947c;0x929220982fce1;0x2d657a749415a;0xe14bc80c8d1b9;0x46fc584b87727;0x37c6e6308fe];[0x1;0xa28931d0d6932;0x2972081bc3378;0x405c99df299d6;0x15d05c741556a;0x36a93470c9b5e;0x6f335ac69206;0xf92b9ff7ad643;0xfeb8766fcbb8c;0x2578586a9ed36;0x90d15a0eaf4d8;0x1];[0x1;0x2daa169c4c7e4;0x7e162dae953de;0x7ed2725095564;0xf8437d3d395d;0x8d451311ce43;0x1de5832446f80;0x6c4796d4707aa;0x8c9064d0c03c9;0x7349189089034;0x17a32bd3db72];[0x0;0x28b12c3b22a9c;0xe2d39b4f47ae4;0x17e828d8df417;0x72ac1a951b542;0xb916f4f72cd53;0xd246e320358f0;0x4d82c4d7c30b8;0x6fb0f7fba015b;0x6a0e480f804ea;0x6e8b7ffa4a222]];
 [[0xbbade7c898924;0xa921716858e1f;0x2244ef634ca6c;0xaec3eb16ea048;0xc7f2ff2105dd;0x1a86eac56bf87;0x2bb18c0f411f5;0x86ee400f9e2bf;0x4439d4c89485e;0x226e335a66];[0x1;0x4bb4d13090fa8;0x7af52e9162d90;0xfca57ba0f8ed0;0xb7bed78456160;0xb0186c181608c;0xa6cbb00ac6552;0xbf097ef06aa2b;0xb1b517ca17499;0xdaf355d5c9fcf;0xfcd683e52551b;0x1];[0x1;0x6585985e45410;0x1a9b0861e011c;0xcbac3ce0c9f18;0xbed1209c82071;0x791b2fc1b7569;0x85934b9980d3c;0x91219c7a4bbab;0x603617d9b9ebe;0x9ddedcc6dca21;0x20640feefe1f];[0x0;0xdb731d91902d8;0x476bcc7ca1005;0x70f65a7859bdf;0xbf88a43d8a446;0x2905e933da0e4;0xde7c83d1a42a5;0x487252fbbdba0;0x76bda37927bf5;0x8cc07caba7007;0x36f3cd499619]];
 [[0x7a99c8d19e24e;0xed38c478f4b32;0xdc56c1cd46011;0x135e79e5218c4;0xb42ba03233df1;0x6631f794a625c;0xdf64dd04bbda;0xe44f855adebcd;0x97b245d6f3ce1;0x44a50c8a60c];[0x1;0x732b4aba8d166;0x1fd678443df94;0x70d90a54915d7;0xad8543e6ec8b3;0x991effafabd1c;0x768cf49147f22;0x34464ae6c0c21;0x1e1383e340ab2;0xab0e21857e14c;0x7778c5cc88cc6;0x1];[0x1;0xf6baabd56f984;0xffbf9086474f9;0x59165d0477a66;0xeee6c6f353e95;0xf6af730e77e4c;0xb7348668da7a;0xe4b4c21ff1dd7;0x1da32cdf6950b;0xa4bd8b3461c09;0x1c47f36bb0be];[0x0;0x2000255995b06;0x6db99c89e2dc8;0xd4a927e2a71ee;0x8a0a5f4a57b9c;0x7fb8b22300096;0xd580f91625f63;0xe486596213a33;0xb5fe6f7361871;0xe1ec67ecd4f5f;0x88df30f0ed909]];
 [[0x13cb634fd99ef;0x9fb22fb2d2a57;0xfb03601d9377c;0x527442a7a2acb;0xd78e9620906c;0xd7a1a91634c15;0x69dd46c75f0b6;0xf91dd288ebd9e;0x9bb346061a19b;0x2da20b8a566];[0x1;0xcf8827c4cf99f;0x1d24ff623d9d0;0x69177b8f222f0;0x1e10497fd8e76;0x421024506534e;0x490d4f30baed0;0x953a12777b4ab;0xb3382ada84a0b;0xb5c3bfa71b5f4;0xa5b8a014a9686;0x1];[0x1;0x6961c9fcb0c91;0x8a49c54f8a809;0x1ce76cd8d1cb1;0x781196b625dec;0x5ce506792346a;0xe71136ee7ff4a;0x87cf07624ce57;0x2ad424c7a2241;0xe74c4a851f8d5;0x18c560668ca4];[0x0;0xde10d3d4d7825;0x73d0bba9a30d5;0x10e570c8258a4;0x8fe74676884c1;0x27ea141af333f;0x6a40a7447e6a2;0xa1b7cc6a7966d;0x739cf9014fba3;0x5374904a7a397;0x5afb288ee5e25]];
 [[0xe4061e4983b9d;0x671ce84451b1a;0x8ea34499ee489;0xca051a04692d;0x3832deffbd42;0xc4549e560bd4b;0x19d1f78e3cfa8;0x8cc99b825ced5;0x700bda67a4a85;0x7eac7bf533c];[0x1;0xbbfe91a0fc6eb;0x20cbe84d2b183;0x5d7b82e3d9484;0x2b3853fee428f;0x2e61318a4cea3;0xb71ad009f13ec;0x3144a9b6bd818;0x20745a88138d6;0x50c6d961290ac;0x37653f132586;0x1];[0x1;0xa2b5f4656e739;0x4daaf49e082b2;0x26369cd0389f0;0x32abf61e4808f;0x6fc0c11cd1759;0xb3cf4d34dce60;0xd7e54e144feeb;0x9d8051f46aad9;0xe48def8ed74a2;0x18d50bbc9ee5];[0x0;0xb8ca7a163cc54;0x1f2706f64fbca;0x94ec1df1d5165;0x3ad8e4ca3630d;0x4fa5a7f8af47d;0xc1349f4e0d6cc;0xdf00cd75cf828;0xb1ee190f838a4;0x2954724fc3149;0xfcb9dc11493d6]];
 [[0xe920c44f1cb5;0xa6a8fc8cd49d3;0x8f8b0f9e61c5d;0x2977810d09dbc;0x971f414219a5f;0x8416163e1d108;0x446bdf22c2ae8;0x1e96e094d5f90;0x4d3cd53d51ea1;0x128e485b82b];[0x1;0xd4855a6d96694;0xcba12a02e6817;0xb6691dca01ec3;0x6dc455e453b3f;0x10198c0ca2712;0x8bf939fe64351;0x8bc6f3ecc8525;0x274ba42a69010;0xcbc7cbefd9ea5;0xdb7c7cc740d1e;0x1];[0x1;0x44eab75e22de9;0x749c65254ba75;0xcba75f01791ed;0xdf8df559df408;0xdc092e3a5403d;0x8f950b734dae0;0xc8467820c071b;0x384be7d69f142;0x43be6398c0bd0;0x190671abc36c];[0x0;0x8fde06714b620;0xcf47d3e78ec7d;0x7378bd6d13dd0;0xde650ba6c74e2;0x139620c720a2a;0x80342bdda7b26;0x2b4985d9d5d5b;0x3479b47f3a5b7;0x623f3a8e53ef1;0x245b8848c82e1]]]
 (V [0x6fe82a988ea3e;0xd3e2fc792461;0xb0d3258770671;0xb5de433309e6e;0x2299c111ec1ad;0x7892d1e0c992a;0xcaea908090172;0x6909523d1e491;0x5be271e000c0f;0x56d94556795] [0xeb4c659c54430;0x26c1bdf592fd;0xaf6a2edd3d0be;0xd5359daa36818;0xc829745345f05;0x64bd4f4dc06ef;0x1491f3537eb99;0x7cc666d7909ee;0xe17c388dbeac;0x6c8d6e5b981]) [[0xc0fd2f3636d79;0x415c31ef26631;0x20faa724f1306;0x99f7cf56a7f3b;0xd2625a5e1279d;0xe9fe6bcde0d1f;0xf188a3e75c9aa;0x8177dd7b67f75;0xb3e91d0bc137a;0x70eef2b4d32];[0x1;0xd223a9b9e6426;0xd809820e65dfe;0xa6fc1c6e2fd2b;0x309a6f6fe052c;0x40286870ea3b9;0x73838a6ad2c17;0xdfe024c8ab027;0x401f68bbad831;0x5425bef463808;0x1efaf13c98e95;0x1];[0x1;0xf43984f6b79a1;0x51ae5888234d7;0x6efe3565ef0f6;0xebe7cf05479e2;0x162b36881f96;0x3864e5beec237;0x8fb67713293fd;0x49127c7fb6837;0x569fe48f8b00a;0xa9dfb1c9dde];[0x0;0x319bf7673e2ca;0x2efc4bef8c70f;0x13d7e24345615;0x444f4b1886b34;0xb49b3e89ac2d3;0x16d2cbc270bfb;0xe8b06c6ea08b8;0x12754c1ccb775;0x424c2292215ff;0xe12a217ae382d]]
 [((V [0x83dbd85f5b6f6;0x71776b8e27bb0;0xdabc4d3d16764;0x5dad52946c72b;0xcf17a3a3084dc;0xba1ed9bd1ed7;0x466304dd7293a;0xb39b18b37c417;0x94919dc792d87;0x61f7529c959] [0xd73691ea880db;0x3c6542dacf1c1;0x40d679817af56;0xa079067f412bc;0x311ce0e0516d7;0xc12694719dcc5;0x21095b9eb41dd;0x89a8f56aeb4d9;0x5930083043298;0x715b7a1b14c]),[[0x5535cb868ff5f;0x38250e2f0944d;0xae490a963b4a4;0xc2433ca946f36;0x407c72945fe9d;0xf07899032dae6;0x8f318ddc5949f;0xb1e96bc2b9038;0x690a40c4ad8d2;0x45ea3a60ea4];[0xb6a3bd249f3fd;0xb578c16d0e0d7;0x8db02fdd0f3a5;0x2606c2e78c309;0x627f7b83c9f34;0xc07fe04cb67b9;0x6b15c30c6bfe1;0xcad2dbf56974a;0xdf18f0936c8d3;0x4a85d189870];[0x1;0xc8cb51ef3fcc4;0x1bec798576dc4;0x2173b42d5f98a;0x66ef278ebf2d2;0x163732c957c42;0x7334aac98b9b;0x96f913d82a251;0x4081ff90fe1b;0xdcfa4d63dc370;0x5a1e3d199c4];[0x1;0x9eda1c899f1a0;0xf4ce575acd3cd;0x963db680b74b8;0xf311e5bf4278;0xef3cf1511de04;0x46012499d9beb;0x938bb8439c83d;0x6c6603784511c;0x821d066b7ebd2;0x1488d261e5df];[0x1;0x6f3e34e4e92b1;0xffa85ead90c50;0xe613651eda314;0xdcfe47511991a;0xf94ebefe16934;0xafed58a2dea52;0x144ed649a1503;0x389c1eedb0ad1;0xcc72d722d1eec;0x1f923870506f];[0x0;0x654232a7c6527;0x4015e1fb1a1a6;0xc6ea9bbd7dcb1;0x167b2c66ec9f3;0x9e8ffe4dccd53;0xc2f33a4097737;0x5a68a34aa30c6;0x7b9c654212128;0xc10bb0244c3cb;0x8a587aa01e056]]);
 ((V [0x34c2ea21a195;0x6a4ace785c043;0x5b81b617cdfdc;0xdf700db433d12;0x1256559514ec3;0xd56cb6886782b;0x82acc52d71529;0xef03033ac7fd0;0xea51481769507;0x59dd38ae646] [0x5e0042af253e8;0x83ac4ff24dfe8;0x4628cf299a256;0x9325e53b1900d;0x2a9773152f55e;0x1e0c12a0254a0;0x16c26426f11b8;0xfaf9f2b0e3a9;0x97ffabb97a782;0x397389f1966]),[[0x9c7737c2f90d8;0x223d5a61a554;0x70900d73467ca;0xc346f01179c18;0xb2505539cf7a5;0xbb07f2332516d;0xf98a6b4c1631f;0xb2ae26a41de71;0xeabff6620ea25;0x1690b15ba18];[0x76a9359f66a80;0x311d1f4bf56e7;0x6eb6275b4d822;0x35b1a06ef9a57;0xafc3bc7813c97;0x9a09659330e42;0xea5abf90422;0xa1eb660b4f143;0xa4950862afb9c;0x287a4a5008c];[0x1;0x2ee6bf8588424;0x543314f02a14c;0xfd9a86ef31860;0xeb4c42f971296;0xfa55dc83b5b3d;0x9bacbc61b59d9;0xcffd9ca64effa;0x155502ca25db6;0x58506003c8346;0x5f9dd89b53];[0x1;0x4b911ab311090;0x4a639e9d55528;0x5c65e4248e812;0x2bf3de93ed230;0x1d359dd063270;0xf05a1fd12b496;0xdb837a5c5ffbf;0x11ecb005ad5be;0xfba146f612920;0xcae603f0deb];[0x1;0x3149ea201b240;0x17c6d2a31ebb;0xb243b90816019;0xf2e8416ad5a1a;0xaaa1a40a4fdc9;0x97412b68cf4ab;0x22268a7b86269;0xa1238bd8eb97a;0xe3606949c5855;0x2379d5b479bc];[0x0;0x613a324658080;0xd9c11b2db2305;0x4030a6e24e54c;0xd970764b84c39;0x5740765dfeb2a;0xe0b256c30ed18;0xc679d00d1921f;0xae035a35aad54;0x6d4c7eeb947f3;0x2be3c30591699]]);
 ((V [0xd0515f40f6e6b;0x8b77672b09bb1;0x1b750caf2453d;0xa80a8ae9beeb;0x78906f7ed5060;0xf3b4d79d6f673;0x3d9e75bafbf99;0x31186779f23c5;0x64f08c4c9f63d;0x5b4b2b4ce55] [0xbf906472b9ac2;0xeb140abd44567;0xb7ecdf8b84ced;0x2948ba4df1012;0x15c3656b3e332;0xa80208c204198;0x796eed4dac61;0x1b4e4b624c16;0x75e59e532e42c;0x770cbe0718a]),[[0xf8df5b2d5a0d8;0xcc9608c1df772;0x36a6f8c9f6a84;0xe3077e245001d;0x2858e84017bc9;0xb460b53a08a6b;0xd48af03c2073a;0x20dee8408dbdc;0x78f5d17631691;0x769c04ee181];[0xe3fab0443bd74;0xce25924f73e67;0x19bd621f2aa13;0x4097477c5b84b;0xf587ff219a766;0xc1c96dade47ad;0xe346d1da79939;0xc9149ca5a5207;0x99ac5ad5b664;0x18a2d3c705b];[0x0;0xf69ecb73a9557;0xfe44ff642ec31;0xaca9cfb45fc45;0x966e3efeb040a;0xb0a46c82c8b4;0xbba93078d3d19;0xaa74973f7bac3;0x6cd71a094929a;0x4fdc4053c8a8c;0xdd1799a4b9];[0x1;0xe9d2a2ef95f80;0xa3fa470ef3406;0x4a7aca4f73889;0x71bc221830f65;0x26eceab60e353;0x454a23dc0491;0xcff7b4c1b02e8;0x3f012679af23;0x9e72c0f517a21;0x2957e247840];[0x1;0x6c2b5520cb240;0xd76626480feb4;0xcaea593708dc4;0xa1eefa0aef22f;0xd6c89b64a9c5b;0xf19e912b32c8a;0xdf71203efdfd4;0x4f30ee89c71f3;0x6c3f644abfb9;0x1b022d2105b7];[0x0;0x53f48185f7468;0x8267f04627bf4;0xdeb2eb148c794;0x7b53a1ca65dab;0x8b083cfac5af0;0x2f18ace1ab343;0xb64ffa6abc16;0xeaec38c2914d6;0x8ee46304fc065;0xec4c52377500c]]);
 ((V [0xc4d7280457070;0x2bb9fc26d2e6f;0x36f8a88110587;0x6a6010944bf7c;0x1c2fbf2da6ae;0xe11ccadb65eb;0xe70bf27465d3a;0xaf12f0a4bc5a;0x6e140ce9225c7;0x75e6f132440] [0xca5a7fa93bd08;0x138d489fe4a64;0x94325f9398404;0x65c34d7cd9bbb;0x83744b580081d;0x1d015a2bd67b9;0x7125db8b7d335;0x652893550f84e;0xbc27ef535aa18;0x1901d5d8ca8]),[[0x2b0c0419421dd;0x3e2ec2405f4bc;0xd7c08c9f77b5e;0x6327466648a08;0xd66178c373563;0xf486f78949a58;0xd2d29af17928b;0xc31278661a1b3;0x6fe10a08fc3d9;0x67c96b1341c];[0x5e71dd0e6d7cd;0x7358e242c5bff;0xfd1c1562818aa;0x525f73e33c668;0xeadd0d24f3d55;0x6152893d5f13c;0x3816dbad88335;0xb45d47c656f31;0x68e4465767dd8;0x7fcc39afb7b];[0x1;0xe17b89362caa9;0x9704d8ff0c1be;0xc72055ff41ff9;0x2ee6bdc1d89e0;0x40e81d446684;0x6490ba70da7f;0x576558926a178;0xb138e6326a6c5;0x3cabbc6586946;0xbe7b65a94c9];[0x1;0xd1beacbeeb5b4;0x1e9ee2e02ddc9;0x8ac04eb7b0354;0xe01df04a85c9b;0xd511c5a1e4aa4;0xbceafb389dbde;0x57c3fc218dcf2;0xd6e821afcf28a;0x92bc5a321b50f;0x23dba2d18f47];[0x1;0x2b5ac05fff9b9;0x152171c2557cb;0x8a5e617247514;0xd67e92bed694a;0x73172aa1d24cb;0x3884e59a53e91;0x32b91b23226fb;0x677ea65a9094e;0xdf3eda807f908;0x204d32a527d7];[0x0;0xf02da94a5a39e;0x1775ccbff24ab;0x87cdcf441996f;0x8aac81e621a65;0x53e6361595110;0x4019ec5e0d706;0xb79ec08f437f5;0x7e74ab2b5e904;0x281388486b9ab;0xcec4ef31b97cc]]);
 ((V [0xbc0e1a0043fb3;0x90e281afeb882;0x5804976795b7;0x9648264ca5455;0x95c50da3d412b;0x146ef34d2de85;0xf1eb0522f8e1d;0x87ac3fca77686;0xd6d9226e9215a;0x3ade4200dd0] [0xe4613fe106253;0x172aa61f0e8d9;0x5050834c17457;0x9b2a81ea8fcac;0x77db8954fb935;0x9cc86a50229d;0xcac77c479cb9e;0xb57eace3f35d2;0x3ee2d6400a1de;0x4edb18aca17]),[[0xa6f02040442f9;0x8926168dc06dd;0x6ed8fac86f0c9;0x539f74232437b;0x265671c60da2c;0x924450e328fde;0xa499479dd3e18;0x8eaf425ff1e26;0x7b909ec6730b;0x6d29cfc24c1];[0x7264b0e511f76;0x63315cac83db6;0xda9cb52f6cba9;0xb797e44b1769a;0x6cd9aee507ca9;0x2829dadf5f576;0x303414651c9d3;0x6f30175b830c1;0x49eac8b78250;0x3eca01e891c];[0x1;0xefb52f988a100;0x35f9fd5c029ac;0xa1dedb7a33404;0x8acd4f0d0c10e;0xceabb734b7ece;0x70a7e2d6a2016;0xcc4d0211be44f;0xfcac4c61b2650;0x2b6a65262625;0x10fa3234ac0];[0x1;0x5246d43609890;0x4179e53ee9ccb;0x21ea7861ffcac;0xe580e85353692;0xf007ba675df78;0xf8d258246fad3;0x6ed460701e3ba;0xe826fa97605e6;0x7ebc6f0bfe65a;0x14e1494e357b];[0x1;0xd9c937a5ddca1;0xf5aa6595fd073;0x5fbb78e440b08;0xb3e2ac1732d07;0xfc72ebf17426d;0xed8603808a9d4;0x6342e9eaf5bd0;0x9b114b1eeda78;0x9fe32023941f9;0x1f03f054b76f];[0x0;0x92dadc43950f4;0x1dda2bc7e2139;0xb1c8d9a44206c;0x52d9b7d6a17ed;0x62c97729054b5;0xd5b1ce7c829d6;0x2b6e4fa77265f;0xd06ad801b0235;0xbd15f03c92720;0xda236825196c1]]);
 ((V [0x2c7d421cfe59f;0x2b8810a7bd0f1;0x7e68d5cc5e6d2;0x6229612c5c41;0xa7c42c4d3c4df;0x3f93f2da367b7;0xdeff11befdb6;0xa231a6e84ef29;0xc551f868f9802;0x2402aa48815] [0x55167c542451;0x38623ebd30ac6;0x99054e16559d4;0xb57412f8177d3;0x53ef79c61a6f5;0x2abf12c517c56;0x2fed2b61ff3c2;0x249c96abf0663;0xda180e83338ea;0x5b637b056ca]),[[0x47c30ed944dd;0x9828126db09ba;0xfb664e9073e8c;0x2fd5cdf5e26e0;0xde16071fa0bda;0x4f183dee52f3c;0x4c6258edfaacc;0xc17cfd07e82b4;0xfc66c46324b08;0x3694c056b18];[0x28341fc6d06d6;0x30964b85ee90b;0x32d662d5a7f55;0x88399e0c8d851;0xf5c4bb91ef11f;0xb33b1870ffab9;0x8776043b3accf;0x122a6630e00cb;0xb2c3adac020a9;0x3eab372cd63];[0x1;0x155d5b20a8219;0x2f2bff043f25c;0xf5becc2e64d08;0x9a755abf5eb2b;0x9484d4c212312;0x8a12bcaf8d927;0x9919dd14c37b1;0xaf1c397e1c731;0xa829dd886ea86;0x6243809bcf1];[0x1;0x9d1fa506bdb6e;0x8b6fc88a9e34b;0x3c72cbd8e729;0x4d33ec621c09f;0xd40e43bc5b1c;0x4bf95a205dd0a;0xcf119ddb7737a;0x75bd96fcde27d;0xdb9bb800e11c3;0x134c3269632b];[0x1;0x735d273b87b9;0xc6e52242a2e8;0x6f433ec68b2a2;0x80ea80f3875cf;0x56ed1eb804a9;0x579e5708900a0;0x2bbf11bf9ea01;0x473d0991a41ef;0xe253a905f3b7b;0x11c382d6d679];[0x0;0x91da66cc1b9d9;0x3646365da5d0d;0x81231e6e9b553;0x79917d25ebcb1;0x779e2248130be;0xdfe6a6bec6960;0xbea3fb97471ca;0x663c306da506d;0x608a7657bc92d;0x6c15577a97c78]]);
 ((V [0x106b455478c6d;0xd0ae26c04bae7;0xc78c17335a417;0x6656c32249524;0x9622444a2b40c;0x9ea34b9a4e53d;0xb3485a213420f;0x8cf3eb503c1c2;0xb229541a05951;0x2e4341ec124] [0x6e5832ff36984;0xebee2dc84dda3;0x9b68913db3bdf;0x31ff26f4389d2;0x1439b68288d64;0x1181bd465a277;0x5ed188686fef7;0x8e98778572d1b;0x801277a7cec09;0x5c7a1e18781]),[[0x1060f0d4b260;0xb408f951cda37;0x87b06e3af1639;0x237a7dc0c2eec;0xe157972a23fe1;0xf84c781856112;0x6d507768e3183;0x6b51371c7254;0xbb47915e41473;0x1f8f1afcada];[0x88352a2ff70c3;0x90a2edef507c4;0xc2f7c72fff057;0x8068ec1985be9;0x3640231c27ddb;0xf5864fbefdaaf;0xcdb0891d3e1d0;0xdc2093ba557bf;0xf48dc9bdb90c1;0x5e8cbc6c487];[0x1;0x978795e3e0e31;0xca9ccc86bc84;0x8cd4739cd87fb;0x7c2d762bd1fe0;0x1f206f0651550;0xc50ed37986e44;0x5be6c31fba39b;0x8e7762f0287c9;0xdd64586524872;0xb2f7f901936];[0x1;0xa326eca4ef4c0;0x9d4c0d76593be;0xc61cb360cd1ff;0x8651ce623d2de;0x3a9fdac7e1835;0x92ee739a9ecdb;0xb89ada4323a1e;0x52b50b4e9d136;0xc156dd7c39442;0x20a3be222f88];[0x1;0x5089583a56400;0xabdd37becb5d9;0x5d8c678345ee4;0x99455d1737703;0xcf5e559ae1dbc;0x90d0645d9e88d;0xd9039ca4fac07;0xdee47bd0ba80c;0x3c93c374cd750;0xe4c93be973a];[0x0;0x5d0ab5c8487a0;0xb1eaa3eb572d2;0x6d95861ec1e34;0x8ad4510a5c945;0xf17695ca5e422;0x2a187f03aef2a;0x3d0bcf7139d32;0x9afeed472457c;0x2cfa00582a08f;0x3dcb82c70fd9d]]);
 ((V [0xa542ad58f2478;0x289106e3c0492;0xbef32ab1a1bce;0x588de59d74fbc;0xdb2a6cbe3169b;0xe095f029f403d;0xff517ec0776a5;0xa1dd789d48e85;0xcc229a9af1ebb;0x6e95b0da6a6] [0x2fc7305d285;0x80da83d08cca9;0x2ab8fe9555976;0x27248e877b9b;0xc9c5ba229f250;0xa744542333855;0xe92a403292da7;0x6a99073067bae;0x96353882fc25b;0xb135adff12]),[[0x5fc4c641bd395;0xb51d85e8bf57c;0xb193ce60007c3;0x5a8c0cf6d747d;0xbbd95200ec03a;0xfc33061b5e324;0x949a5d3a54a09;0xe4f61f6041e32;0x36bfb15ff6f6e;0x405b6329013];[0x509238fcff7a5;0xbb399d15ce01f;0x9113ab1f73c67;0x2f009719e9ac;0xe46ec8db2f13e;0x2e3bb297fdfdb;0x88c3dd08478f8;0x7c5dc7c9b8b36;0x4848053a4ca0f;0x1568c4bb2a2];[0x1;0x9e63abe183d59;0x5c956be160fa2;0x94cb8acda448;0x8175b2e35aefb;0x356eb8124b752;0x4da4dd8e3f4a4;0xf48cfab6f62a2;0x755685483a23b;0xc6b8565113531;0x1a190ebd820];[0x1;0x990c68df42d28;0x5ed88393cff3f;0x17eaa621bdc11;0xf25b5951f5fe3;0xa4d67aefa83d7;0x51d5b875a7b7c;0xabc5efda135bf;0x6598288f9316e;0x300776fabaa97;0x2376715f937];[0x1;0x56181a2165ea9;0x8da4a136c45de;0xa4747538cdbc9;0xa0ce5108bf753;0x3d98aae7cee54;0x5bcfdb0cbde39;0xc3b9d00c89806;0x955ec9555d7b0;0x372916ae076e2;0x175dcc4fcd1b];[0x0;0x354000f11110c;0x7e5bc9d4e0c48;0xc54f31a8addd3;0xa4d9afe9f6f7e;0x7918f2ceebe72;0x1a67ea1b0a3bc;0xdf57878b2e0e2;0xbedec5fce28ea;0x6c50406b3a517;0x8007af9f542f3]]);
 ((V [0xbb986f67b123f;0xb4d7bd5005f48;0xf0ba66445f5eb;0x5d8cbecce7c5e;0x8cb21163b5563;0x4b42d95f04b50;0x26f510a6a989f;0x60ca560713fa5;0xe5fcf624d91ba;0x29228145969] [0x733780f78ad31;0x661ff32d111e6;0xd53fdec6694f1;0x2a5b7a95ad5f0;0x72571716c4f39;0x9912f32b8f4b8;0xb177f308deb3e;0x229060286056c;0xf6c75024765ee;0x74796de5330]),[[0x43a6a65609b3e;0xe8e30b077a0e1;0x5b4f70a04d4c3;0xf287fef150d40;0xf9421c6a92f3c;0xe409e62fb0d22;0x3950842bda273;0x8b4428f624587;0xfb82524616e67;0x33b721f19c0];[0xde9bb7098815e;0x7966a23963406;0xd332c716ff04f;0xf0e9d74f1afac;0x76209f2858258;0x62b2b43cb54ee;0xeb18a0199b66c;0x164d36481b60;0x659d53b18f5e4;0x5536a21e190];[0x1;0x1bee666bed440;0xc77a3f56cd123;0xde1aae0d78be8;0xdb1dd3ea8d6e6;0x21055087318fa;0xe0b31f2961d4;0x61e735a94a153;0x98dcc1486ed9d;0x7e760e0a974b8;0x4ae34d361a4];[0x1;0xac0529923c1ac;0x3649e6c0ab492;0x31be1fef484ef;0x465d867d94e67;0xdb5dbc809bed6;0x155f865f14a23;0xbeb6d4e0f2100;0xce6f8290c5df4;0x3fbf61d13acf5;0x1f654af127ee];[0x1;0x4eb2fc010f8c4;0xe47c7efd5b815;0x9c1adca4dec78;0x48b282a86546d;0x4627bb6e1e26e;0x82034ce865e97;0xdb94a6ce4e88c;0x1fe00df101372;0x8a80ec3bb0e69;0x1f7b6d0e536b];[0x0;0xab24576290250;0xf476dfbceb7ad;0x3de7cdd74db0e;0xb662761a916c0;0xbef2ce0785fe4;0x6b4428ba5da68;0x8539fe182b42b;0x271e03bf1a5d4;0xa4d5618c69b11;0x66bef0b5ad900]]);
 ((V [0x6f0dd4872b078;0x57db8a9f5f9f5;0x801a65c66371a;0xee18c04d675d8;0xb73fbeaf55e07;0x7c78fe92641f2;0x83fac36908ba0;0x89da4173d18bb;0x5a7992390c092;0x7c022d16fb8] [0x99ace4b2aec18;0xbc4b240e9c909;0xa62f884e8d09a;0x2d5095c1e2dcc;0xdf17ccd5a64db;0xbf2c58d90f9b7;0xead566a7f573b;0x63aa7c7fe3973;0xb76543c68799b;0x1cf7800f2ca]),[[0xe8cb188adc24d;0xc64425e8f7f30;0x1751597ac1b2d;0xb7bf60841729d;0x5296816a60c2;0xc8337c8c57949;0xd22be8fb992da;0x40d6694d90eba;0x4dd47c061cf25;0x1264c5a3f47];[0xca29e76e08524;0x1d5239ed77563;0x2d5d47480467;0xe51e37bc15431;0x1a0de76717eda;0x91ac856e59b44;0xcadd3d7607b40;0x7314e07ffbaf6;0xdff3a8dcf92aa;0x21559174ce8];[0x1;0xaa88e8fe014f1;0x97bbc8687be29;0xe77b5963e8b9e;0x3e44ae9ba5c43;0xf497bb8e7630c;0xed769d040173b;0x9e0b7cf6a34cb;0xe1b04b659198b;0x81b850d5ff886;0x3572fecbd91];[0x1;0x42243ecbeb2da;0xb22e0cbce68c4;0x197e028edbb2a;0x6838f470421ed;0xc30b4a92ba72e;0x51b0576abe8f9;0xf57293c5d02b3;0x987d2fd04a309;0xad61487de63ff;0xa687dc68826];[0x1;0x93a660de7619;0xe4d4c3c02257;0x23023a1aeb5ef;0x9780af9799b84;0x9fa121311c218;0x5f876b0e61b42;0xe2ddabed4807b;0x49a67c5cb329e;0xa7b1fbc7d47b9;0x199e9b858336];[0x0;0xec4f14acf6aa2;0xd395564b046fe;0xe7a824354f03d;0xafd6a9c284589;0x3a70b21241388;0xd65e716bc5b1c;0x78fe2a10da1c2;0x4ce2eca548497;0x730fb9d6dfefc;0x23ad257ec60b6]]);
 ((V [0xe43d22dfab4f;0x2b32e8ff2047a;0xb189868a7a555;0xec6b8a196564d;0x8dcef16d7924b;0x3ae9c9aec38f6;0x5d5deabd82e38;0x447dcde42869d;0xb7c1e78251ad3;0x328be41eaf7] [0x968ae406efdbd;0x7741ad4676f9b;0x61a3137114355;0x95c3da09aaed4;0xb21a972cba85c;0x311a35972362e;0xac971763482bc;0x46835c96cb6a3;0x4436ea1c770a4;0x5508118d33e]),[[0x5f25ba9b1609e;0x3b9cd13341f65;0xf17ea698c793b;0x157d15a4bd260;0x6372ae419b2f1;0x95ac5e41ff3ae;0xb1fb4e1658f0c;0xa2bfc2c1bcbac;0x85e690ff2a6d7;0x6b913ab97c9];[0x410c0101bffce;0x2a2951f0ba1fa;0x5d336fee12791;0x6fd50c2f9165a;0x9841ea111028f;0xc05d579b2c384;0x286e20aad02e7;0xd0d7effe019d8;0x2b5045092a3fb;0x74fb64a39b2];[0x1;0xcea670ae1440;0xba999cd6e1006;0xf75a381b663a9;0x73b05060d5e20;0x30a9610a5a3f0;0x64e16be2402d3;0x74280fa3c7aa3;0xf3af8af90cfad;0x86c28516bb3d3;0x71d291e1365];[0x1;0xe0a0b2dcf03a0;0xee26b590ebe52;0x264327c0f7af1;0xc5322d733f0ec;0x685fb9cb54b27;0xbfe2db4be6b17;0x9520d2f3d7ea1;0x98dcc58aa3b60;0xff4cbd8c76945;0x28d34d669e1d];[0x1;0xe42311a18f44;0x67c842e4420f9;0x9627f50108bce;0xf9e590e79a221;0xff02621327bcf;0xef30e92613b2;0x21d8e7c2221fa;0x1d12f17f9922f;0xf69df3a935ccc;0x1fabb09a4098];[0x0;0x19605adca4d30;0x3e29b991556de;0x332e4cf707cd4;0xce18bb2b4734b;0x958f1aeff9688;0xf8995ac0b6381;0xfe1dbbb95d3a4;0x84548ccdda40e;0x46389e1d294be;0xd6e7c3c52c329]]);
 ((V [0xba0ec0438168f;0xfc4a58db697f6;0xf1b09abe1e6c7;0xe7805c5746f56;0xc132a12f0491b;0xf76a82b8e3e6f;0xdce6cd3dcdafc;0x7cef82d7b0048;0x44ea1b9379475;0x99dbd9e691] [0x6bb9f42c1011e;0x51f4a9ce2b1f7;0x635cc909db8a2;0x962dd7ef83400;0xc87d7849ac6b5;0xf8b850a35eaf;0x9d3abb0cbc4d2;0x1108211786e6a;0x20cd811ba8260;0x27bf06fad9a]),[[0xaa3229312a365;0x81ec84a70320;0x9dadabbbc1191;0xc7f7030b3ada7;0x7f39eacb61c17;0x674e7c7df1e12;0xbe317f8cceee7;0x3f52509871491;0x991908cedd9c2;0x1ee958752d];[0xe78db71bb7002;0xf981715bcdf00;0xdd17d418aded1;0x9283a1224665b;0x811d3ce70fdf7;0x42f9e095425e3;0xf486471f4acdc;0x82690274d0aa2;0x81541c08a287d;0x2cddbdcfe91];[0x1;0x76b29190add1;0x7bc4cbcb5c127;0xc640234776c1b;0xb8736a62e9b38;0x35f1bf123e963;0xf7ecf3b8cba92;0x12c37f7990dde;0xe012571a0a517;0x538d704678a9e;0x45c59884cfe];[0x1;0x7200c14f18602;0x38a3b52f312b9;0xa138c05a01ad7;0x1989e40d51a9e;0xcb1a2cb4c2bfe;0x4bd2902700e2d;0x9875c90b9839d;0x6a4286a6505bf;0x2cbba6066f04a;0x10aa155ed68b];[0x1;0xeea40f5e7cdc9;0x3b8ec4bf0331e;0x150155f28c2b9;0xe0e5be10d6a14;0x2b2516b214ad6;0x12b2765183449;0x239a31b94a16;0xcb9530b8e850e;0x1726e3fcffefa;0xdd6394acb4e];[0x0;0xd81e17204d9a5;0x33083eca7eab2;0x995347a7de2ed;0x8d4ffb4480f31;0xb8416e376282b;0xcc79e0c64e825;0x8f2ae02195513;0x321875b787e76;0xbd8825dfe218d;0x2e6299a0a007]]);
 ((V [0xec5ed99f2ef63;0x65f1a7ae6cc62;0x65beef32a8b2;0x9e78ed977e9ab;0xa980beb657ec5;0xea5deab970e90;0x4eab36409b776;0xba9b4b8173d3f;0xaa1e91edd8ec7;0x7adbbb9a1f6] [0xf69c8d1c9b029;0x857a05f6e90c8;0xdaeeb8172bc27;0x6876d8ed02a67;0x8a065f4a4bffe;0x2fc3e8c09b775;0xe886cbc35ee35;0x4cc8b267deffe;0xcb7ec316b90fa;0x13281f58450]),[[0xf02503c2b0646;0x2ad189a0acb03;0x17cf584fef826;0xb360cfcc0ef10;0x944ad4c5d102a;0x4c50ecaf13293;0xd6711a009151f;0xcbedcc02c16bf;0x8373c5b398c3f;0x351af6b3142];[0xf192ccfa1e91f;0xe7d89901c86b4;0xd4b0c3adada7a;0xff6dec59317a3;0x98e7ba43de43c;0x10a774a409939;0xa31d004cbf72b;0x795dd3ec09c3a;0x112cd915b17b4;0x79d68e260fe];[0x1;0xd9ece11a71751;0x47c95af894e52;0xe8931572ae196;0x17e65d3cd3ec7;0x93228edc938fa;0x3be80245fce56;0x663ebded62b72;0xc29b0fe529878;0xaf25fc754f7bc;0xf2f42b3d977];[0x1;0x93df6000559e8;0xc51fc8cf99caf;0xf5f981a56299f;0xa0f20136cee6f;0x8ce648ddc396c;0xfcc68dfff385f;0x33dfe8347b47b;0x9deee1bc824a1;0x36e59488a5360;0x2ba0c644c538];[0x1;0xdef5ebd4cdee4;0x63396a810707a;0x8b8d6e62b86a2;0xb2c5d9847fdc6;0x84729bf257f78;0x612a9e5a289c;0xf709cb33f0ebd;0xc80e67e54614e;0xbb03fbe919e85;0x1062613b3823];[0x0;0x99f4b1de9a8be;0x4f129b228020b;0x4a68c176b77c7;0xbe9e33881a061;0x96f7297d1f4bf;0xe14c2670b0a3b;0x69429056fd10c;0xd79165d89bb74;0x22a0a2c9c2dfe;0x69c63e8a31c3f]]);
 ((V [0xdc4ec3fe8f6f;0x3c2b2de4ac832;0x5cee480c1fdb;0x81f3e5ae195dc;0x9ef8a50483519;0x8a333e2ee17fe;0xc0eee0c1c8662;0xcf5a760b9f754;0x1fddb3813a421;0x344a19c3d90] [0xb024cb21c13bd;0x71c9e6a8c3fb5;0xafb3a9ae7f6ca;0x902fe38454145;0xbcb370e6abe8;0xc8b55f85dd13a;0x4ca1bcdf70fc0;0x3b0a7cfb917b5;0x9705e3e643dd5;0x177818284a9]),[[0xe77ec93b902ca;0xd57033b8094a7;0xfa6a1cf9be474;0xbdfc77b82adb3;0x890e7a733b184;0x7d6b596f9b091;0x74c8643e21ce9;0x8149261a424f3;0xb539373f32cb8;0x61faa364f0c];[0xe740d4e30a8c9;0x50599af18e25c;0x63c4095cc0b72;0xccd5d35321f76;0x5a0ce2b0ac24f;0x51f34ba478e5f;0xdf1da9b28a12;0x3be97fb14c28a;0x8e5e213cce846;0x7974c0d8650];[0x1;0xa9d14cb6a0939;0x6bccf8d15d2d0;0xf73146544ced1;0xfa3915b12c9ba;0xeec1f8162f067;0xe9c2766419705;0xadfaa5b29a5b9;0xa47cbbe1b3d50;0x5f8de89ad1bd7;0x7cfd2addf7d];[0x1;0xff28fe921e774;0x5a5195e82fbd1;0xa68d104dfd6da;0x1072e95395c7b;0x2e75606d488bf;0x21503af2a6117;0xf2f073782171a;0xeafd614f7d14f;0x74741268a5e6b;0x2bb68afedbe2];[0x1;0x2104b4e60e724;0x26ff7117a897b;0x589bc29bf7d42;0x9d8868b07101b;0x6d38ed996048c;0x26c4bb12aa241;0x7ecc4c48c891e;0x7184d9ce4431c;0xa59911c5a279b;0x2090357841fd];[0x0;0xb8ba9189e14c2;0xb40364e6621ac;0x2705752e9f924;0xb47b1608362f8;0xdf2ad9991c67f;0xe38d3acc8a43;0xdea3efcae606f;0xf8754eaed9835;0x17025d95838df;0xc43805896efaa]]);
 ((V [0x78535c035b878;0x1a5e26bd2b88c;0x1b08d4fb46926;0x1498b27d9957d;0xabee0331361e4;0x18db14c8ad65b;0xa2206833c2eda;0x5b5fff93a790e;0xe62e1ed2b226f;0x24b50cff1be] [0xe9b90aa75f8a0;0xe7e799f370955;0x148da56eaa859;0xe7628e441aeb7;0xb97b3a60440e;0xe3bff11905dd1;0xc3ed85156b3cc;0x4f0921bf79824;0x64d395ec85e8b;0x75e80bf168e]),[[0xfa9f3ccb75155;0xf3de6546514fd;0x4deb356f8bf5;0x447d164980e1f;0xaae8139cfb304;0x5eadc66a6079b;0x6f242a8a220c0;0xe68dacc443a15;0xbe1494c187ff;0x3f32c9649fc];[0xbe627736d2d9d;0x5470492231877;0xadd49c4d1b897;0xaab089ba6b971;0xb76b61aab5a6b;0x68baa307f759d;0x98e8692ddf476;0x9ff2e463af682;0x28df05c0180dd;0xdd24f310a1];[0x1;0x8a6bbf53e191;0xda479e18516eb;0xe973fd862199d;0xf66490687b1d1;0x95871a7a167fa;0xe84d29115e15b;0xc4fc8659bfc53;0x3f59b2517de1f;0xe6e3abd65b10;0x6483e8d243];[0x1;0x2a4fd971ae062;0xc61c29f313ba3;0x3eb1c13d4ea73;0x49ff841bb6c8d;0x750f359af717f;0x57c68620f91ce;0xe3df11fbb5e49;0xf8deec48df479;0xcade67e55315f;0x3bc103b1a16];[0x1;0x3729c3a017829;0x5638be5412d7b;0xaf7cdb10f1777;0xb7fd105a6476b;0x8b5ef66bef70b;0x5c5e8b01adf2c;0x5fdd5186bd1;0x1631e342fb828;0x7deac3e9e7e85;0xfb5e6ea7fb2];[0x0;0xe2222bf7f8002;0xeaa83630a989f;0x7f58234656024;0x85e9a7483e69b;0xdb11a5010439c;0x2ff6c2ef4bf73;0xf0300ce2e51f0;0xe9ad4dccc098e;0x8752de4b87177;0x7d91b6d576da1]]);
 ((V [0x2c41e8c6d879a;0x14663f43eda50;0xfbaec1957914b;0x330936dd18d7c;0x4a737c1d6d3a6;0xa2f32011d4f17;0x8d36530851e9a;0x2be678ff35685;0x41608add3140d;0x3615c4dbeb0] [0xb737425059a0;0xa9cbface06d18;0xeeb3b8cf995ba;0x579566a64231b;0x73dfb71087024;0xd22bc054f046;0xae024fcebad6a;0x8415124fba9fe;0x4b099647a4108;0x434b74e306d]),[[0x2187c90e48fdb;0x61349d96940b1;0x762c594550158;0xba417868dd0f0;0xb37b9ba4f101e;0x3625b77b906c7;0x5cf04dbc373ff;0x815571d7b2997;0x2d5ffc1d8a083;0x278e70d4d12];[0x3018cad65b2c7;0x9889bef86c66f;0x598b81c789908;0x7a68f88d1e848;0xf97eb888f8f7c;0x289caa46ba09a;0x2110747cee531;0xd606d6248aae8;0xf60ae137e2c89;0x407a97f3263];[0x1;0x1c4bde48d9440;0x45e3b82500629;0x6307ae6c1e8e1;0x3278ca925a4ca;0xa120519ca6a93;0x795853fb79144;0x97724ad24900;0x42cb7f568ea1f;0xbd9df682cb163;0x766e588009f];[0x1;0x977f4f3c2a5c0;0x899930f52b9ca;0xa84c5d48bd2f5;0x6ac114bd3249c;0xe1fd983f8d6c3;0x3c05df9a8ddfe;0xe52c1b7d6f32e;0x3cea2c82992b6;0x732457da6c0bc;0x139ffbdb3231];[0x1;0xca9daf6edb549;0xaac425666fd9b;0x130d448eabaa;0xb93dab3b58096;0xdb70965f316c1;0xa4c0dac3c178a;0x89f8b59cfd314;0xfd8e7bf7e04a5;0xaa813572458a3;0xf2c6526fdaa];[0x0;0xa9146ea355591;0x167ae390c2b66;0xef63b15fb08b1;0xc862e2a94572b;0x9c1ed44461ee9;0xf8283f8675a1a;0x91c463239c43e;0xe05bef9dbc52e;0x41f565a7378aa;0x4dccaa4a2b71d]]);
 ((V [0x59889c24bc752;0xc8336f0e973e8;0x39695c8d87b56;0xdc0a57f06225a;0x71dd23238b18e;0x268c233568487;0x25595e65dcb54;0x49662da12a4b7;0x3eebc4cd23aec;0x2596effa9d9] [0xcefde05e7f771;0x1df41140d4a88;0xb8508edd54267;0xcc6dc2e323e60;0x439b7a57aaa44;0x229dbbb453a09;0x6617cd755cae9;0x434e19d6f25f5;0x3483d3f8eb610;0x49262725713]),[[0x2425dc44c8e7e;0x3771ee85da260;0xfe23b15f3895d;0x1dc032a642d3e;0xb1e783deb7b65;0xe8294ba07a47f;0xd0cce66b68fdb;0x261dfe0a79808;0x8f39e47765ae0;0x540741da097];[0xa039c647cc845;0x4de0b3626d3e5;0x906729382e981;0xf925c26f00c44;0x728c624c04c9f;0x3e80224509b5a;0x8351f8f603086;0x392d8e4997548;0xb88f0aa5ab370;0x7c94f01627];[0x0;0x95d943a194b9c;0xb60d740d84365;0x5e22e81266eee;0xd6e202144d7ee;0xde3ffb51167eb;0x85aa9afa0ad48;0x754ac67ee0b63;0xbd4b9bd0b8b21;0x77a19dc4b65f;0x747c3ca904];[0x0;0x51d40f14f9e80;0xa734fe685e1dd;0xef6e99c29638d;0x409c8271965ef;0xf3d0faf883e9c;0x624d3f307cb36;0x1feccc17ffe6c;0xa5c0294cccbf2;0x933bbf23a0105;0x29a2d0e0589];[0x1;0x177d63832bc4;0x35cf96aaf0a7a;0x17ea9470013e3;0x6daa58dce91bc;0xbf021a9290f80;0x958b626527cb0;0x965d7b6d8aaf5;0xa5eb269176a97;0xf8799d1b79590;0xec5b6c8d650];[0x0;0xf4f2f936b060e;0xaa608cfa69790;0x72b6c102e679f;0x9d8dd43acd213;0x8c607dee7255c;0x75c110c3e035b;0x8a5b230ac23e5;0xec25634735fb0;0x98ebba17a5699;0xa7547be8fc0bc]]);
 ((V [0xe267333f561e8;0x288f4a825869;0xf1351afe482cb;0x2a3769104da9c;0x7b7cc65abb651;0xc2c4733b5cc5c;0x7fb919ed939ef;0xd7cb68c67ff0b;0xe7a0ae4ebdcc9;0x7b67a89daee] [0x634eda257a125;0xdc19c021a587b;0x4d5135eee6cda;0xaa65ba371fc8d;0xac7742a009fd;0xaf9bb35667b7a;0x76e4b4b0ecfb7;0x84ba5f9f3b93f;0x64afae61544c5;0x40e48166d37]),[[0xa061a7b13b0b2;0x67c40b64bce39;0xbc1d1a34688dd;0x76997b66ef796;0xf6125cda0c63a;0x313cfeb48848b;0x9593230ac4abf;0xd70a3956720c5;0x9a13cca5ca69d;0x5def1f1bad];[0xaf35e02827c0d;0x3826e515c71b5;0x7c082e788313d;0x4672fcd952c40;0xd9c3e203eb795;0x571613642732d;0xaa38c0dde9cac;0x755fc65e23330;0x854ac33c0d84f;0x41066f83ed5];[0x1;0xb07ba23571804;0xd06fa2b72e694;0x2ad3367fdae01;0xb16111c431356;0x396b8b18e460f;0xf7dea8580861e;0x9ece5cf64583e;0xb0a67ad41213;0xa01774662cac9;0x7702ea4ec24];[0x1;0x8650b74821ce4;0xf0b7681ae646c;0xb0354c6055349;0x706db05f21647;0x739229cfe93d8;0x5a7f1d3c0277;0x81b7cbb9a458e;0x55629e172448b;0x549d3767cba1b;0x17f70d128e4b];[0x1;0xad86b5399a584;0x7c7774638f015;0x6525dc47fc3be;0x452fa61c62daf;0x23ae94a3c3ac5;0xe67fc25081400;0xd511daf94e88d;0x7b3c97b00fd06;0x17f68c3057551;0x18ce621ede9c];[0x0;0x1d4e13a43de3e;0x7c71e7a2e736;0xd7b303e0bd024;0x3a805bd692c81;0x78038025790a8;0xed2c48f3e68b2;0xe391f14bdb85;0x606d1b077199e;0x573f41ff2b431;0xaabbde4e33f6]]);
 ((V [0xc7356cebf07e;0x7cc705a16ee5f;0xc63105dc1bbf8;0x16363ef01b0d1;0x5d39a8be8bb7c;0x316f5c130e255;0xf30739acc36f1;0x353cea1d3ff7f;0x9eb55c37cdf2d;0x333f915997] [0xd65680e5ed246;0xeb5cf2406f18;0x76dc97bd50e1e;0xb1a77437f7033;0xf7d3459a0a12d;0xeea0632b387fa;0x4c3b8531f07ba;0x9025ce3078e86;0xa13cae111b789;0x4d5e2c3527d]),[[0xaad56af7e41ba;0x45714a324924d;0x194b5e685218c;0x27e74217935c0;0x2da99324373fa;0x7820cced6779c;0x40aa397388f74;0x7fac6464beda1;0xc4a74fda5bf19;0x4a9c82df4c0];[0xccc87a69a34ed;0xb668fe208289d;0x9eb532c6a8c98;0xbaf5da8f2871c;0x59a23b6250bdf;0x1529abbb53b32;0x9faf87491ef23;0xf1ea942d2b217;0x9c4532217cb0a;0x3f7282ef85f];[0x1;0xe892a50c2de40;0xaf99d1bee746c;0xab42576bcd79b;0xfcec9f3b74ffb;0x3c4d772339ac3;0x624e0f74e38c;0xad09670b4d7e1;0x2d627541a739;0xd00dada3fca6a;0x7eb79ddc3d];[0x1;0x18471107dd84;0x234d4d75e4834;0x5a7a228878319;0xa74e508ff3005;0xeee7ed23446ad;0x973659226705;0x9599f56788ee2;0xcf7ac29fee57f;0xed317a31d84cc;0x131082a50448];[0x1;0x14d77b3bf7ee4;0x19c96d614bca5;0x943579200c48;0xeeb3f74875221;0xc62d6f527af64;0x18cb9ce4531f2;0x16c4435fa9650;0xf7bb34a4d0748;0x712c638f79c14;0x1c888ddf038a];[0x0;0x943bac3be6ef6;0x80c2724db1c23;0x31d1c9e524881;0x83931a1855073;0xb2d294cede589;0x938d6d904e4e;0x1898c10518be7;0x5f3be06864c41;0xe3f5020ee3f4f;0x94ad2dc19e37f]]);
 ((V [0x3b4bee277fc3c;0x9b8a2228b8d40;0xaeb8700be5254;0x42c1b8baee007;0xf1cc8f5f762d3;0xa3efcf5b1e905;0xd131d45730ca7;0x456f343d2c17f;0xf680cb4b3240d;0x41377d6653] [0x155ca4061c22c;0x62dea8eec0ab4;0x6528f1b3a8c71;0x6b895d4f1c9d;0xd79b402f1d46a;0x84c5ebc2e3f05;0x99b60e9f61a61;0xe2eefcfb71c7d;0x1c2c4602bf70a;0x5c3000d6913]),[[0x802cc351045f1;0x429a59e721a3e;0x7c3cdaec9d21d;0xfa0c9124e68c3;0x1d5263b094138;0x8de5470693332;0xe580dd2c79052;0xeeb1fab006cba;0xde1c0af0ae06a;0x6256412ecc5];[0xd3ca97fee51fe;0xab2870f8ad164;0x619a7e5c1fd1c;0x4acce7ae004ee;0x9b0ef1711f4ab;0x70e4033ac26fd;0x3df401c01eed6;0xafce2a22d949e;0xf8d8c521b395e;0x8e4d0a7637];[0x1;0xfbc361c5023c4;0xf24b46f564870;0x1c8817ecac1a0;0x733a8c7d7068f;0x2df32000fc734;0xd264f2079ae8a;0xf806e47ebcbd1;0xc9a8ade7f8cee;0x10a25ab140155;0x11b51c8761e];[0x0;0x75aa1c75b66f4;0xd56c9e8c704d1;0xa1f27b0da5f28;0x4536ab85627d2;0xe341e61f42e34;0x29bd19afab45a;0x92bf14841c72f;0xb671894295908;0x997672345ad79;0x4183951caf1];[0x0;0x7ecb289b0faf;0x9a750ae14d116;0x511e74257889;0x6de169665d888;0xda9cea2d0c40b;0xd94705c6dc050;0xb64f98e90e70d;0x9136adf2a29b1;0xd7b1172a79228;0x369579ec309];[0x0;0x1283dff2dbaef;0x56f0535161742;0x1069a70eaf414;0xc4f08adc13797;0x80b437059eac6;0x2c6139df6c890;0x58b6bf2b2ac74;0xa1464da257aa;0x94f2158558dc5;0xc3bb109109806]]);
 ((V [0x944732bca5cad;0xfdb013c993eba;0xe5e1814ce535;0xc7d2616275890;0x7fd022fb7f4d6;0x29991fc14e7b6;0x8e437ccec4dbc;0xd736dedbda4ed;0xa4d270ae8ca73;0x4f41778af9e] [0x47f8732091c10;0x2914938041784;0xf950fd3502e29;0x466eedbbfaf76;0x1f54a08a8497b;0xb58154441f06d;0x1aa2ecc1315f5;0xd836ef0b80aa4;0xde026de522804;0x23c2378de21]),[[0x6c6a5787335b3;0x7f84fc2a80b28;0xe46172cb7c04a;0x4562d2d6f6d5a;0x240977f7d45b8;0xefcacd4e99069;0xf06eb14f08699;0x3dad9cbce649c;0xc095d569ad18c;0x53cbd8ecac8];[0xd404f4b589356;0xc80346b7d4088;0xca9036de8ef49;0x7b16d28eeead1;0x5b4bc24fa0d5b;0xcbfb186231b1a;0x6f106faf46c97;0x4e6f58f743ec0;0xc98d3d12d3832;0x106e94f6a31];[0x1;0x430c4d7da6510;0xc3ec1f5482026;0xd4c5e1a4e4ae6;0x73133765cdb70;0x27a5c6bad0445;0xb8b669041da22;0x113cd963a33bd;0xf84cac09d80c1;0xd20f731b7dede;0x20bbef79dc0];[0x0;0x45fdfe4d10af8;0x66439bfd2328;0x361688c23cff6;0x33dfe4909b7c8;0x5132c03aa5d01;0xbf06ac7c397ba;0x9c9e885a2950f;0xc9d722a874caa;0x777749391f657;0x161c6408069];[0x1;0x1d5bd44f44619;0x32c37e9a3cf97;0xffe7d341cbc70;0x1b6797b97ef9c;0x4593219edeb1b;0xb4b4c350c173e;0xb6261295b619e;0x79ed55bc0697;0x8d6385ba82b71;0x77f52c791ab];[0x0;0xbcee66fe71406;0x60ff06e327b02;0x345d6644f8fc7;0xcc85be6be5879;0xfd3f112b6670f;0x39046810cb14d;0x191642212aa;0xc98fe2b67d983;0xca760c256be3b;0xa6ba61b3519b8]]);
 ((V [0xb31e64d7b1008;0xb498682910b64;0x214126c450fa1;0x71e850a3d066b;0xf7030572ee803;0x447d22b5c680;0xc1fe58129bb5f;0x1bd7c7a07673;0xb05a87a3931d4;0x475c2cb3284] [0x70fdc42978bcd;0xa782a2dd1ec6e;0x5cda683c264f;0x26c7012c51292;0x5eefa99c7e504;0x67a982c466577;0x3449818dce808;0x20bd0f48f7c59;0x8f7454b413305;0x12000b1b44a]),[[0x768f2f386ad75;0x5a8bae5d64808;0xabb11ba3b748;0x54f750908a370;0x91556c4a13fa7;0x454717212da8c;0x17716cc4e23da;0xb5dbec89ace79;0x43848627bd717;0x6090308a3c3];[0x7b993c99f2ced;0xdc6e1102b393a;0x45d59e2c981eb;0xaa73577d1b81b;0xc5e4b8f8c0858;0xe37fa9bed686b;0x2d13202087520;0x107f874292d6;0xa469474627f83;0xed09767dd4];[0x0;0x2b4d51e10427;0xfb76f9ef73832;0xf915f4c087c83;0x3e4031b86a587;0xd45843c8ff45a;0x1e08386a36340;0xa598675995562;0x2354e7b31e52b;0x37b9e14f7a4d5;0x1371c23baab];[0x1;0x38eef3ebacca0;0xdbfe6a047fb0f;0x4078ff78a81fa;0x2b9c495ea5607;0xe8961500c7fdd;0x7034327a9c537;0x962f57fc24951;0xe9181c4eff4b0;0xe9f2d9372173e;0x22efa8fe773];[0x1;0xc8f164032b569;0x306169e8266d1;0x161ec8886e4ba;0x886bbda997822;0xcec2e1dfd6b3b;0x26ca80229393a;0xaa0d9d1330224;0xedf631db3a3d6;0x13390d25d842c;0x182e54c55948];[0x0;0xf8ef5560e581c;0xd3f0aa00fff8a;0x3abb1b2b0b03a;0x1214b74b2c89c;0xc0cea3e510ae4;0xd5a38fa78f77c;0xd0173873ce60d;0xa06482b8b08d2;0x6b602762ddb64;0xc11b619cc4ea1]]);
 ((V [0xfab084adff13b;0x5b6c3a406c3f4;0x2c3289b14d77c;0xdd7bbe7519352;0x640fcf4a0b159;0x89b7c0a683be7;0xa9dc028610841;0x71e7bdf529e59;0xc99f086912629;0x1c1cb4d916d] [0x72a77b470bb51;0x3403176d31589;0xc62950c73f261;0x5316cb0961e56;0xdb5e7f40cce5b;0x45a588c00894a;0xdc1963a42ba8;0xf0df0b55df922;0x78ab4882b416f;0x380d0f09a37]),[[0x5d9b287aaaa39;0xf016386cc9ebc;0x2a69caeb2ab41;0xa22d89ec22c0e;0x4d4bd1c20d1d0;0xaf41bda3e538a;0x3c4706a5c556b;0xe018aeb4e2e11;0xdaa33820efdd5;0x77bda18b64];[0x2c77075378b88;0xfab9cea531ac4;0x50750f7c8e4da;0x4e1099006daa1;0xd1f65a1f68f54;0xd846b4090b6a6;0x3e51c9674bb31;0x1432af06a04eb;0xa5f1d18b86d79;0x4032e2d8d00];[0x1;0x2acac90c95c40;0xbaff278a91e19;0xb28f532d113a6;0xe10de1ce374a5;0x3cc9ce9793638;0xb07c3289cfd95;0xd40a05bb083a0;0x3d6887f3252b3;0xb71a4d542feb4;0x589d41ba8e3];[0x1;0x583def7365faa;0xa12a85e92f4c6;0x1562e51c78c99;0x783bd2fd7ef7e;0xb5062c0c75b8c;0x6c14ed16602c9;0xb1ff32935e27b;0x542cc39f20491;0x4c74cfb1d5b19;0x17f167a71733];[0x1;0x3f4f325bd5f21;0x75278dc4c8354;0xe1d9e24e07da3;0x7d0eb0d83ccb1;0xc8ed0ed142a50;0x5fd9bfb4816a1;0xcb34dc70951f;0xb6d455ab33a93;0xa3ce44c4b2999;0x1553a18cd7fd];[0x0;0x76d49d41d6164;0x23b4fa5c305c9;0xe98e8345d7230;0x92cb74a955987;0xb03cfeaa137eb;0x5978a54282236;0x7c790d0445207;0x9b55240f76ba8;0x31f0bbd2f650;0xe6d9d28770b8]]);
 ((V [0xf6d4575b70c1c;0x8074d5b9a2133;0xf27d50572575b;0xa72ece2cf263b;0x4d50862a7272b;0xab1aff2cb33fe;0xb9852d6d2b55d;0x86b2726cf5de1;0x7536ef3ad037f;0x10208db0fc0] [0x4334638469a73;0xe3a27877954e1;0x332e8cbd19055;0x706aa88df79a5;0xd1e15763abdee;0xb0a74bff431fb;0xe7455ddaf4e45;0xfff29b5f23757;0xd90903522ad7d;0x454f3839840]),[[0x7908c5fe1cdb0;0x3c59ab1312712;0x3ad52fa1c48e2;0x40ca087509896;0xbd1a782963022;0xe7791973acb8;0x7fb309b05cb44;0x10f2961e78af4;0xde0193157e685;0x23b2b285f91];[0x6b30d9f69093d;0x40ce01d485391;0x1a664e59927c6;0x1f6c0903a7e6d;0xcb7584a1ce5ce;0x9c155343dd9f4;0xaaf781826edfc;0x8ca64bbab83ce;0x3cb24b4a828ad;0x3557874f809];[0x1;0x3224bff62ef89;0x31e5e315cae6f;0x537292cd7e142;0x24e540fed5c07;0x5179e97a9d46c;0x5ff1c57126971;0x20cc5ad54ac6e;0x33a82c577c3f8;0x911f0dc32320b;0x6482790fe8a];[0x1;0x3cb0d0238c360;0x92e54b577a3b9;0xdb4e5d6ff7dca;0x279807109ce93;0x96eb06f9dd267;0xd7a8d3d980e49;0x8cee127e0a97a;0x6eb2b2e86903;0xfb72b77de7938;0x120c986f8441];[0x1;0x567018d134900;0xedd7c302b3f44;0xba1356b9def48;0xf471a69580aa5;0xc09afbfa0de34;0xa7e6f5446dd38;0x9aeac1d8c515d;0xd21e61df50859;0xab3e6465f48a8;0x86bf3bab91a];[0x0;0x42e76f375e260;0x503b7e5bfcc06;0x8d8959cca50cf;0x177c75452a3a4;0x8b58a08e929df;0xe5f9887cc3251;0x48ed2323c1609;0xa5f7f50ef4910;0x74314dc38baa7;0x4691b6de0482b]]);
 ((V [0x7adeede697e27;0x1364b489d1fd1;0xf09072cae9c3a;0xb88a65b6745a3;0xec20b99a7be84;0xa42b7f676b7a2;0x1d074e50bcec2;0x17891c05f24bb;0x66914df4d0ee4;0x3213c34245d] [0xe91b36c34981f;0xdfb12fdb1e76c;0xbb752f543222;0xf8edc2fefa7d6;0xc1399890c6ebe;0xb13b76ac6d162;0x3afd8eb232992;0x37cc01d43cd17;0x8dae8a23fc41b;0x460c68790b3]),[[0xa886e350a3b9f;0xbb7fe9b89a517;0x660db3008a2a4;0xce1c6f9193df3;0xc862eeff545db;0xc0fa07c937db7;0x357b660f3b3b3;0x5389638a41f27;0x34d3ce93bfade;0x43169cfc506];[0x9d2f0af52bd72;0x352c81964ed12;0x6bb1a9dc98633;0x7e0e301b2e07d;0xf394d2b8e1130;0x36b8d37efccca;0x810d358239d0c;0xf43c1bf57b0e8;0xc73aee19b68af;0x38d2215c25d];[0x1;0xf6067ad2f0a10;0x3aae7c62e10e9;0x9788158eb9dbd;0xfeab936437659;0x28d0884897b2;0xb23892f59be44;0x9c82adc2477a9;0xc98b85bf6d3b4;0x2ee1269eff16;0x6f9c1704976];[0x1;0xf5d287302963a;0xbb818dfb7f539;0xbc665c01d7db8;0x244e1606c568d;0x9c910fd4e4f86;0xa0c8bbbe350f6;0x9499b321429a0;0xfbeb87a2c8b96;0xef9477620a95a;0x10c455c0f011];[0x1;0x68281c2c5a231;0xd21e480c71fb8;0xaa4bb55bae847;0x6b5013b3a3431;0x920e6be274f50;0xccfbdd8f904d;0x97916a556614d;0xf1f2975284864;0xd939876722e98;0x81800cf1a05];[0x0;0xdac253066d9a4;0xde3876578ed28;0xf6235824a601f;0xdb02de98a6693;0x49c1504016c2;0x45555431e4edd;0xc61ab7b7e0aa0;0xa924f69a350b5;0x8fb20bbe612ac;0x8547ce06bd616]]);
 ((V [0x2d0dd0b3ab16c;0xc3f837710d5fa;0x858a77f27bc76;0x216bbde21f603;0xc96b2b132fd61;0xb09241be634af;0x5f2888d9261a4;0x3ace28c20bec5;0x1592e0e53be04;0x130f881ac10] [0x2630cdfcf8540;0xf12ada056dbac;0x8bbc701f6f99a;0x5cb53d96b8f00;0xb767175860c9;0x3345af3525311;0x3e48ab97689dd;0x1497312181bde;0x3e3474d908826;0x77ca9665fb3]),[[0xa4b8204fec24d;0xc17cc6e89ace;0xb01b8c9f535bc;0xc40a38d574627;0x210dd8787e17a;0x6cacaa50cce5;0x8a66f472eb2b;0xc0e4525efe702;0xaf86ddf589715;0x5bcdbad9710];[0xe0fdfa8ae25fd;0xc8990eee9d3f8;0xc3e0aceb19ffb;0x39d5bfa66a705;0x8949b54c795aa;0x795c2f23f4a1;0xe3d2ed1c582e2;0x9e6a3b8165bb3;0x9024bd0a2349;0x466beb10690];[0x1;0xfd0ee0cfd5461;0x8f8f785584adc;0x8f25a45240ffd;0xb97833c269805;0xcb455b2b1600a;0xaf5d3da749e16;0x5df207f8c46cd;0x59160a025f805;0x8d370860b41b9;0x79406287e9e];[0x1;0x73cdc2a584d46;0xaab16c424de4e;0x5eb37af1b3f06;0x2390818ad99e6;0xeda5989c74551;0x9e02d2f23bce;0xa7ad4c5e61f4a;0x8aafd27bf3fa6;0xaaa26cc42d0d8;0x1420cb195a8e];[0x1;0xf897178f87619;0x4f8fdd4e52913;0xb77aa2b85ce8;0xa775ca1d681a7;0x24c87abb01d6e;0x1790cc5a9808c;0xacf33bd2aa5ad;0x82a9526a2b67d;0x14466115353cc;0xac964ce7db6];[0x0;0x33f705103f77e;0x218ef8850fc50;0x8043824f0d780;0xd4c12d505b41;0x80e0618e1df4d;0xa00f24fe0d767;0xe810dec1c0f5;0xe4f92ef9a6a8b;0x2a91b6222b61e;0xb691d44c19266]]);
 ((V [0x2d863353ac5de;0xe99b9d7759325;0x3d28e03f56988;0x29cdcbb3f2a9e;0xb6cd7e66687e9;0xb61c54cb5cb6c;0xc06690d387350;0x37af93ef96db;0x203f9b6f4a267;0x713ca62b666] [0xd8ffc05b28e21;0xa6f947d1a4507;0xb5224a0fa35fe;0x2ab4b1983188f;0xe4540ca1a249c;0x4e106bb5a5a31;0xe9ad8b3c0b1b5;0xae23564de578d;0x7d56ba8ed852a;0x434ec42006c]),[[0xd0acd2952935f;0x4789ba15ec403;0x567e9dff54905;0xd496eb1c6360b;0x8eb883902a405;0xc757fbce82703;0xa0ace227f3c63;0x93478eec6c67c;0x746b3ce48f944;0x36bc66dd241];[0x34601dd9c77b3;0xae28d4e296698;0x3c84af67fb588;0x72308182475f;0x730a1bffc58d5;0x3dc8f31f143be;0xb1452fd587005;0xc68a44d23fb67;0x7f91e851a4a7e;0x703af5288c];[0x1;0x50279d6208490;0x5b3f68f1fb4b0;0x5641a3218a3c6;0x87c2f86864b0e;0x4b27976edd379;0xff91cc9582c39;0xdc839ac699b59;0x76c47fb8e09b7;0x56fb80e1432d9;0xb30c05aa94];[0x0;0x7724b71b1b280;0x63b536c22dac0;0x3ff455763ce9;0x143f39254b8f9;0xdc56c0fa485b4;0xace98e53ed514;0xe760875671aca;0xb8618b139b729;0x53fb858dad358;0x3c5d76996da];[0x1;0xc350b8e98eab1;0xe5a7ae711e590;0x247c2a88ac51d;0x8069b3e41bfed;0x213cc049e117c;0x20fa58296e4fa;0x62ff3692d8f9;0x8782b28ff9081;0x1d5107dc0e287;0x1174f60a8be1];[0x0;0x8fec95588cdcd;0x720e498b25367;0x51c57f845f1f1;0x95e7041cba7;0x1859128880369;0x5506ebb767703;0xe76e07f065fe7;0x1c7677f928438;0xc91c60f2a52d5;0x6c1111c577780]]);
 ((V [0x4334f13d8b94c;0x31b3f31f20192;0x92be2a15f3ccc;0xa87fc02b791e5;0x82bc79ceb7855;0xad794e577dd8a;0x349be0b878c6e;0x961aec3d05a72;0xa8574d9bccbc8;0x6f2377625d0] [0x335b8fb5a7898;0x91576ef84bc90;0xc1837ff095096;0x66928bbbb791f;0x37923862fef21;0xcb1faea31067f;0x5cf9db1b63964;0xe6b45cac0088f;0x8db43d842cace;0x6a7547a0ea9]),[[0x1467342a127ff;0x9365d8c06822a;0xda1988f9cc1c9;0x1e6dbe0d26be9;0x39ac2ef6e8517;0xf6d9f140857db;0x8813febf9851c;0x9317b77615afc;0xd09f80fe0e083;0x2e2942762aa];[0xe82ecfdfab545;0x12b10cc0b2e73;0x6792421bc8cf0;0x3ec21789e8b9d;0x1b50bf49de6cf;0x45b12da4daa3d;0xa8fffb1642397;0x421486958c483;0x4047e938c571b;0x19ebfee2d6f];[0x0;0x560fbad6215bc;0x118afe8bbe70b;0xe5eb997c2209c;0xf06c1d80c565d;0xc2f60bcd47da2;0xac60e55cc7957;0xede0a4b8e5022;0x223d499a38296;0x5a230d019a595;0x3055345b934];[0x1;0xa238061ec54de;0xc2d3856b583c0;0x25eb7cd6109da;0x27466a1ed4880;0xa8c662a4f9fb8;0xcd9cdb7f8251;0x674440caee3cd;0x3a700bbd939e3;0x7d367a5d9ab01;0x6afbf7fedff];[0x1;0xb1bf410915171;0x774eb0e0107e9;0xb051d35d08d08;0xc178db062933d;0x493d5695eea8d;0xf4e4c8472b4fc;0x7219cc37eb54a;0xe83b91f17bbb0;0xb1bb2b16ba989;0x29293d260aeb];[0x0;0xe97d9add8b471;0x7f20126d72682;0xa3dc963fe545e;0x3b76fb37417a8;0x54b02941d9348;0xa5f8d62a2703e;0x9fa9ea038f1d1;0x8293b9bc5ab74;0x9ebe9d8541a71;0x5b25e7d141c9c]]);
 ((V [0x222852262cfef;0xc87d1ec21280e;0x488ca406c736b;0xdde58f54771db;0x96dca98a93670;0xa37d093e7ec78;0x121d7e7c41bf;0xa99d87c621d33;0x263434e59f155;0x63d3338f2a3] [0xb9f49e493fc9f;0x45c8cb15cf70c;0xc26998c970ab6;0xb494aba3be533;0x372baf63c604a;0x3389fa6798975;0x4867e8b6573a1;0xbdf9675a9b570;0x88e34c880b34f;0xee0338b18d]),[[0xb870c2da5db50;0x891266f2ef3bc;0x78a810ebe501a;0xffa6b1b2487b9;0xa340fcc1a9b05;0x441eff4a85a23;0xe9ca2af2775cb;0x1890b62cec15a;0x56687911c73f2;0x53c3a6c06cb];[0xa069020050595;0xf347d0961d40;0x2eea92e71b640;0xade58d04d8d64;0x2a20373a8ba1f;0x6674f285e6956;0x7a874aa3e3b58;0xe442bccc1bec5;0x9497468c0788b;0x3292d69920c];[0x1;0x2284a114fdd90;0xca18661431a27;0x778d847087d29;0xa6f0ddddbe7d0;0x193e11388eb2e;0x80f5daf368106;0x258b1c2fa824a;0xccae121d86a88;0x411ae01381d4;0x4a6204fef1];[0x1;0x3ce67f05eff00;0xc873dded4cf52;0xb55ca50013ea3;0x401bc4d63fe9f;0xdf6d6c6399160;0xfdfd16957d163;0xb0ef54bdfd022;0xa5e9e9a0d80ec;0xac84b98258234;0xa41b7bfb8fb];[0x1;0x55869f577e900;0x9d1584c1353;0xbb707630d6450;0xe918b1b51d120;0x7db9101be53b;0x56c8387977cb9;0xe26715c98e8c4;0x3da96e57751dd;0xc2770cff1b390;0x24d635d57500];[0x0;0x6e7af1413a840;0x364b55f6ae2db;0x737d38e506d35;0x6f6b1cbb4fcc;0xb6fd4e4f28ee2;0x3e39c7fe7e625;0x9730f25cfdf86;0x2429aac2ef6d6;0xea2af5df8e19c;0xa6efcd8841314]]);
 ((V [0x9ce56e17e4800;0x8aa1d6eec6199;0xfbae632c6a46d;0xcac947af705dd;0x96680e0c28f95;0x5c0022e3e4938;0x4813b554259ae;0x97a6f646c24a4;0x31028c96cae13;0x757b56afd09] [0xe1444de04e0c4;0xa88eae642b682;0x6874f2f35a4c4;0x6faac98433527;0xb5947cb57ef93;0xed9940911a145;0x39875fd6650c;0x1cc14d47c3049;0x790cab41c2fd1;0x485c44266c1]),[[0x7fa1ffcb4ccc3;0x7908c8d9ca264;0x29b8026b5329f;0x9e4fb7b72cc42;0x4984f3b9c8a95;0xfeba2696fc091;0xa32e00f1a0f4;0x26d4717533584;0x85f5ccfb268bc;0x4db80519651];[0x621ed7ab86cb0;0x1c99622768120;0x721d0cbe75a7d;0x1ef84365e0ff2;0x676fe54a305a6;0x46c9124a6e138;0xebe7ab231a49c;0x427e87a764205;0x47b79c6d6279e;0x4ece137ff5a];[0x1;0xe659fcec6a091;0x2320ac96c0dac;0x17b156375943a;0xbd36a202f7e7b;0x84114d3b4ef5a;0xc0ddf8e501756;0xfa97513593bfe;0x99f032200cde5;0xf3187b0fa4b97;0x4fc216c2653];[0x1;0xa197cef07b59a;0x201b31b37a0ed;0xe75af0735b07;0x3f0d8959a5331;0xf286a736a3f21;0xa33919ef5e342;0x8fac5032a6c1f;0x9faa22f49c273;0x46f4e79e3b69a;0x1c6c3f138ccf];[0x1;0xb57df9e000179;0xdb0c602dfa864;0xdf532c46d9938;0xfb072dead4c6d;0x1e7ee20509595;0xaecb61c9e93b9;0x5c2f74387af75;0xc69dbc0e2c865;0x7b3a142b85ef0;0x24b130ceb131];[0x0;0x71d1a46e79106;0x767ec6a2a42eb;0xba2fa84ad5a44;0x488e9b1cd6c12;0x8b1aef04bb30f;0x1a35b8c6c630d;0xd7b5e780558fc;0xb7be4fb382ae8;0x95cbc6ec3b41a;0x9b0490c0f856c]]);
 ((V [0x52731ecd8c6f9;0xc66f749e97000;0xa88c61de2f9;0xd5387e06a1032;0xd99a5e22b229f;0x1c9c50984fb16;0xb0cd0e9666edc;0xd2f031f8d2098;0xd64219ad815db;0x4b64581efcc] [0x2b9cf8e5f09ba;0xa83ade06488d2;0xa1094c65b1be7;0xb54ffd91b4e6a;0x22e92eff59813;0x71985adfe2984;0xf42bddbf792f3;0xd9423e336c046;0x22133cb6b2651;0x40acc733f11]),[[0xb5f35714acdfd;0xc7b51bd63df28;0xcc9de7d107d27;0x2eab51c9e89bd;0x44ce896d1019;0x131178b26d000;0xc91608181a30a;0xeff74ed6b2b0;0xde91abf242141;0x7d5f9102903];[0xa16a10218e1c6;0xf53818492b028;0xd75a6fd5d6cd;0x4ac05b951762b;0xac1ea954310c9;0xa168560142545;0x4f817041a66de;0x82339dc0b7d81;0x5720c141e1c27;0x6257cf065a8];[0x1;0xc9dc210400000;0xc62fdc6fd343d;0xb0f10160c1f2c;0x207ed2c2ec2d0;0xe0f82b108f1c3;0x41b878ac134e8;0xa60d8188a04a6;0x28122051eec22;0x3fe2745e8d188;0x58dbacba772];[0x1;0xd2cd88fdd90e8;0xd617ecdafd66c;0x80d822320d309;0x21c8a41294e04;0x23d592b512a64;0x36b57d6fd3cb7;0x24ec365927ddf;0x3c452996cbc04;0xb6b9351baa90a;0x1c04e9821fa9];[0x1;0x412038a2e18f9;0xf66a7a242cfe8;0xcf6d3e8f02bd2;0x4fd56a8d9d660;0x29ed81b379db8;0x660bca458640c;0x4686e2c884688;0xbe13babfc9ae2;0x832deb1c14d1f;0x1f1e91c6a561];[0x0;0x833dd9e6c5742;0x2e5d6d18e1d13;0x47741132ef4f5;0x3cca0648bb3dc;0x632060d841010;0xb224901e453e2;0x2296aeb4a0480;0x8e3b4ab608806;0x33578db4d4ed1;0xfa53a960c7943]]);
 ((V [0x78c9f968dfba7;0xa1193231c168d;0x9722037eb9617;0x5dc089e259f74;0x8fe7231e8e5a7;0x718e80027f99e;0xba70a50526ca8;0xf5342780eab9e;0xc1e872afa62f4;0x57d89e3a79] [0xea17020e48ed1;0x7d4f762aa4e94;0x41f5426a06c8a;0xac3adab7e92b4;0x76bcca86b6973;0xc6bf05e3be0f8;0xa19306f4ae16c;0x8c1c3ae9e7a24;0x3711d279875f6;0x41403d5c0ef]),[[0x64cf822a2b530;0xfed64a9c793e7;0x383583304fa28;0x14559d60a7c80;0x6b16908391a8b;0x921be749ee60f;0xf100bfe1769fe;0xcd5d4fa631c51;0x7e35296a73678;0xb29cb59eef];[0xfe52a4692731a;0x3bb5ef0c98f5;0xd2ec0051f345a;0x146b9ae13f404;0x1bb547c3f4203;0x66e4a1447658a;0xf96e895855001;0xe577e68de49bb;0x8db8bee00ffd8;0x23389f52045];[0x1;0xea50c218624a1;0x25fbdd8906a9d;0x73b383a4e6c1a;0xf063429fe134;0xe9f709dfb2612;0x7598ee67f96e3;0x56b597de870c4;0xf940dd2d31690;0xb61b928cbabf0;0x1a0958b5cb5];[0x1;0xf354b3198adc0;0xda2dc2ac7f0c4;0x49319905d5ea6;0x9df00b834a253;0x65a52d80ebe4b;0x909ad376630cf;0x823884a879f49;0xb3058fd117ce2;0x4cdc26c3f9ecc;0xc80bcd80a5c];[0x1;0x93256642bd900;0x55697333392bc;0xaa342ae51a98e;0x46e10579043d6;0xd560d26afd98c;0xd61a459d0b205;0xd4d5b03343bfe;0xa5782e81b57fb;0xe9a8a9aa212bd;0x1379337aa44a];[0x0;0x80fcce85181d0;0xf92206d0908f;0x5a50a495d767c;0x3d157ea9eebba;0xe98cd3fa16b01;0x4ad0f0286a5c;0x61fb3c8959598;0xa1edcfccfae8c;0x4eefba58c48d6;0x1560ff1ecc2f1]]);
 ((V [0x5a1f46952fc22;0x5cdbbe35b2f2e;0xd912687daea77;0xb2d726c6ee2d0;0xca8ddc9ef9adb;0xe3bc439422c00;0x696700f2253bb;0x7070a68021a3d;0x82d1baa9ca1e3;0x77d8dee2d72] [0x965182cd70a23;0xe0756b80426b4;0xf1bceac0deecd;0xa39d2923e4b5f;0x1e096b49735aa;0x46b83cb9c9a55;0x2a269ce09b4d5;0x4efe07e6d67e6;0x4425a2a9dcc4b;0x4a2c9d77401]),[[0x1664209fe05b3;0xc30dd774cf27e;0xfe48b51c28430;0xcf5eae1ca760f;0x6e96f186489e8;0xc7ae42e6ca898;0x71ad0b6cb58ff;0x18060e5d861bb;0x50466ec43d4ff;0x62117b80362];[0x8eef3e2b16261;0xb9dace8369a2f;0x74c07eff714e6;0x62ba8b6f3244e;0xd695cbc4d089d;0x91f02595d2957;0xef41b5b0fb286;0x945b4158c5325;0x181cfda8afeb1;0x5aab9853530];[0x1;0x9b6507f1f8161;0x10e34925eb70e;0xdd17c12c124d4;0x67d02cb0f01e3;0x9285860aa682a;0xa4d0f18bc770;0x126a3c49930f;0x2e4e249a7cd42;0xc8ca1fb2abf1f;0xb51ae6c0f7b];[0x1;0xc41569f14e6e6;0x1ff531276fa7;0xf50810b080091;0x9edb3b881360c;0xf8cc90f0f5862;0x7770c70838e6a;0xdfd236ab2fa72;0xcdf2ab6de6a4e;0x4b6c091ac1a1e;0x1bc096104811];[0x1;0xb3f98c6952619;0xc9fd588c7ad87;0x6981230782277;0xbbed9952980e1;0x9266c731e5881;0xf9f5494a2ebd5;0x634f37a587169;0x3d216e985b002;0xdb45b69e4d19;0xba851dd4b4a];[0x0;0xc146ba9bb7a24;0x41317bae8279c;0x1be89c8f6cd5e;0xd6efb0182c9b8;0x2afdfb1e8c74d;0xcd52f06300e09;0x976bf72641b3b;0xa6ec3f778c0fb;0x10e7c03a75381;0xc316913abae87]]);
 ((V [0x34108ec245630;0x8b86e0029bbaf;0x895c210c08689;0x4a2d0d33526b6;0xf26e281c81910;0x362b1cb1d9465;0xa1c4d2943e789;0xff65603b45a00;0x5b65a49fead41;0x744e4a8cecc] [0x295442c657250;0x7c92afe2fdc0e;0x839a8b90c10f5;0xb787fc37166eb;0x91417d01d2395;0x3da9178c61921;0xa0d41e9701ccb;0x63529af925850;0x15959a0a59053;0x2027e77e028]),[[0xf171175c8a91e;0xb8d37af8702fd;0x891a8c1d9065b;0x5112b4fba68da;0x31d9f1d9701df;0x778c60bebe8b9;0xd6f116d27c80d;0xdd20f2b850d6d;0xad7c670e14a3;0x69f1500c8e3];[0x390bb4c17c5fe;0xdd61622a7a0c8;0xdd0dd1aa19d6d;0xb5ac9acd1053a;0x590ab784f4ab2;0xf276b15f89c07;0x8ede2af0b77cf;0x5dd5af5d9b43d;0x722a3ee8a34f5;0x5bff6f5f0d];[0x0;0xb365d7fbb0dbc;0x3dc3e8d840f6;0x630d57171104b;0xb8beabe57a609;0x8fc4648aecaa3;0xe91ab2fcaf757;0xdaff91ca0bbc9;0x860077e703009;0x302845d86e961;0x64b6bff3a81];[0x0;0x1fb168f96ff0c;0x87f2b8983d411;0xb02f44b264827;0xcb3ec0a14a451;0x4dd1931dbb2f2;0xdb4c81ca693f5;0x5e1186fa910d;0xd8401a0e9bb32;0x1b7ab0017d794;0x5849155b472];[0x1;0x40bcd9a486d44;0xc0858da5c35d4;0x206d2d70c412d;0x26da941e9a969;0xa63eec6eae901;0x57535609d3b55;0xd55d20eb967a3;0x372ea136edf80;0xd223dbcf89b9b;0x270506260fb8];[0x0;0x3043ef899ec82;0x22107bbd3a693;0x3dc945d8be152;0x5607bf955a85d;0xc2100828c9043;0x762ad60a608a5;0x4b552f4937909;0x482846a15c23e;0xb31905750f77e;0xd37ad6ba0f240]])]
 [[0x762503146095e;0xc57379cb1bafa;0x9ef232a83e12b;0x40458967297da;0xec13aa2f429a;0xff92ffdc9b3cb;0x448a9373739eb;0x909317d31c348;0x8fcf779df152;0x3c042bd6713];[0x55ffdfde85c79;0x86b22213ce6f4;0xdf5a8e561e999;0x6d9ba29fff7ba;0xdc185d371d17a;0xd8b95443a707f;0xab407a7b268c7;0x75caf09f94643;0xc6b36657b0666;0x5b98211b8ed];[0x1;0x7f4fb3c4d3900;0x52d6454cadf37;0x4ce1b97c7aaec;0xea5fbdbe40057;0xe3786d603f25;0x4059ea7e575e7;0xb8910059c9333;0x8c3faaad6ac8b;0x65e06a57cb780;0x4d822b34a96];[0x1;0x1a7da1e4486c0;0xf151c9963e143;0xf7ee4dadb0a5c;0xd5d7059e92994;0xa0c959292f12e;0xd67cd2c56efd6;0x8104b9734a167;0xdbbbdd15d6a43;0xb857bfacbcf9e;0x20769451a311];[0x1;0x1b6de910c1c44;0x2ff28e71f4ccd;0x5e3d053d8caf5;0xb3a48d3ea4d07;0x6e35f7f7f5bb;0xa7b2ca9659a76;0xae39ad4568ffc;0xa5f1a10deea5d;0xa7ff47bf9877c;0x24ca7937345b];[0x0;0x34b3ae879a16;0xec9f219c96255;0xc449079a84b02;0xbe58b18778a67;0x3486d000bf6a6;0x700a057e970a3;0x4e84f19bcb178;0xbd0a8f4aebc25;0xb72d7c8137b1;0x77f6629a462c9]].
Definition wit_512B_64_9 : colwit ipt wit := mk_colwit (V [0xc07197ccc8ee8;0x1455575338e45;0xdfccc37aecd;0x4752c5046cad0;0x19b7b4ff07e96;0xc47477b907027;0x61552e4eb2f23;0x8e0ce26fa9ba7;0xa8c1fd12ea90f;0x31506939348] [0x981dab136e60d;0xb8c283d91270d;0x1ad812b9eaf26;0x569e69f0307bc;0x497f5fe9f767;0xc6049dd64ad1;0xf41a40e2a18e3;0x36f8c38fb8442;0x6f1d14a19c3;0x4e6d85e4d8b])
 [[0x35060770a1ece;0xc70f9993bb69c;0x20ef80fba2bef;0xb5b1afbec9db;0x4e96978e5bbf4;0x6789c5d4f8f52;0x2aead5af7358;0x88327fe318860;0x2599dd30fb120;0x3847562b73b];[0x8cef75fb8ef56;0x83280d3bc058c;0x18f2c0607e33c;0x636af428e8b18;0x6399479a100dc;0xe905b57599390;0xb02c0569a76b0;0xf979e4489d91f;0x47d17d4ca24f9;0x5f92107aaf1];[0x1;0x46fdde1ae2e90;0x4eae439a4d5ba;0xf84963fda3c30;0xd0dd083283843;0xcb4fd37d90a42;0xc81ffa1c98ef2;0xa7cd94026569;0xe7c64d6f4f2a5;0x48e16f28ec286;0x9245287d7b7];[0x1;0xd0b89c452d3f4;0xe57e4035635cf;0xd4345b914773;0x307ca913ca580;0x35a94d9ea25b4;0xe8a9342feefe3;0x8c915dee77ca3;0x957282a677418;0xda5014818215;0x22f102d11b03];[0x1;0x74b7fe9153784;0xabaee17664943;0x8a1059116ffdf;0xf03f4f397bca5;0x79e33191a4507;0x7a43d5c143a7e;0x9cda9e0f9a15c;0x3ab823f4558de;0x9b52ef22a9886;0x17906e44163f];[0x0;0x3912555963166;0x9d7f20ba2f560;0xdd5512da70bd5;0x45a77d8940025;0xd03f02e60cc2;0xdc5d5c52cb003;0xf61847a1492b;0x18a3b64b13317;0x43fe6bb1e1b57;0x7015130cfa55e]]
 [[[0xbb1ffe81a920c;0x925d85d663812;0x6b83ed748e988;0xc119349576ba2;0xad5e7512590d2;0xa2f8a6e711676;0x67b1b2498e15d;0x65b716855c5c6;0x17957adc60908;0x3a3c90884d4];[0x1;0x617fcb757cfe4;0x96e336cdb46f9;0x4593b7465373b;0x100c7083cffea;0x5a47695989837;0x426573d5e19ed;0x88c5a5a8b17f1;0xcccc1c2cc67ae;0x22643b8c6821c;0x8cd4df7f098c7;0x1];[0x1;0xad97273e97f90;0x931112d065191;0x4ad881f09fa64;0xce70d9195dfcc;0x52ffcba7086e4;0x6dc97a6913639;0x8921648df3fa4;0x18770244f93c8;0x4aef02ff91fe9;0x148075332b58];[0x0;0x6a3b129d376e4;0x627001d203a21;0x5e9b8aa0166d9;0xfc78d031f2ad4;0x17586affb1924;0x4e49384c25d57;0x99fd66da99018;0x7ecb3c1fcaa40;0xe10ff8cc02a53;0x73efca15ca840]];
 [[0xe533327a2b28;0x302d3f6d0d56;0x1c1c408b7d875;0x678d9300d523b;0x61d1a9ca17add;0x575ea67dd73d2;0xe237627e380b4;0x1811453b902d6;0xa925d9886073e;0x7bee7746a9d];[0x1;0x48304e0163928;0xadc450efe165a;0xc470d44accb1a;0x8d44efdeb76e5;0x38dc92eb8b6d4;0x4cd94b69afeb7;0xfb12c5530c7e7;0xb6cd1e9f7398b;0x4645e83b442a6;0x89916299c305;0x1];[0x1;0x9054994187240;0x268de202c8adc;0xb5a26abef863c;0x162a5e875b512;0x79eb4e4896e2;0xa15d3984d0261;0xa00ad3f50d353;0x3c53ab407660d;0xa8b218f9ba47;0xf49a67d21f3];[0x0;0xf2163a9869e8;0x6084884adda8b;0x6658d37c3a9eb;0x2b9cbfd1977c9;0xbaa3fa8bc1f37;0xae69d72c88b7b;0x5e15af3186f21;0x4f35b51c5271e;0x6aa6b32406703;0xf720414b773bf]];
 [[0x306a9b45bb820;0x357781b4ba3ec;0x32aee458d8725;0x60f07c3a51e0c;0x432dfe60f42c7;0xcca5fe482f812;0x404d146bb67a8;0x2402aeefe1f29;0x853ddc19002ef;0x693747c5238];[0x1;0x847549194b120;0x6b0541ba9977;0x1578a960432c5;0x5fc81098b5cef;0x9d162024dd22e;0xc964442c497dd;0xa0439c2cfa9fe;0xb9fdd4b162cbc;0x574bae48feb41;0x2e6fc7e586929;0x1];[0x1;0xc4a77d7d3c400;0xc8e2a4d87714e;0xa1fa673f9e95e;0x45db604c937b7;0xfc17746646512;0x4a215765a0b9;0x5caac2fad0aa8;0x85389e01496a5;0x9407a0f671367;0x134a96a5b668];[0x0;0x1f870f9a80900;0xc8c72e4017832;0xc6713c9745290;0x497a3322e7e3;0x4470e5cb14e1a;0x573be5121b1c1;0xa6160f8900f38;0x16f88816996d5;0x650130fdb938c;0xd232087d7d1cc]];
 [[0xafaf1bf10a426;0xbac7f4ce18743;0xf415eb58007c0;0x38e9fb388110a;0xe11d9d0c60d82;0xf5f8b66ad827;0xbc35610f06440;0x8a76f226a0b8b;0x8ecddc8df4c18;0x9af8bd4623];[0x1;0xc9fe416a4f14c;0xc6187bece3574;0x5bb73c57e6709;0xc97a9a5361460;0x5763d8e272f2f;0x5015b4f5450f9;0x865dd30d86be5;0x8991571a82e87;0x478423f008144;0xedf3e713d4170;0x1];[0x1;0xb609935e45164;0xe216443a7a7fb;0xd374e63fe60be;0xf1d25f3d4538d;0x8b4688dacbf7f;0xe3bd8614dc84a;0xe0c08d9264e7a;0x973f10d250322;0xa4bbb84b56e15;0x16faf6201cf9];[0x0;0xfb5ef6ba56b82;0xf87405b66cba0;0xeeb05ad3728ff;0x70c74fc514f39;0xd660cd20fdead;0x6e582378479ea;0x5a05e464e7540;0xa1ca334356023;0x290bfc5eb4963;0x127fc1ef4ba84]];
 [[0x59f5dd9c8b0b3;0x5fc866530eae3;0xc3ff444737f47;0xc0df9787dcc48;0xfba1b73e5c948;0x36ac9df133d1e;0xb0b2701da8906;0x9189d49d6397a;0xab78199d4ac3c;0x49122deaf80];[0x1;0x5f3d4ec603f8;0x3e004d45afd4b;0xc8e7f107b577e;0x49dc9edff0a57;0x350af57db50b6;0xa7ce86a82e05f;0xf34f667813ed8;0xe102e5a941a62;0x7d873c3016df4;0x6e924f2dd2cf4;0x1];[0x1;0x8c50020382819;0xf641f3cd075a8;0x8ff2067d8be83;0x3cbdc2e0ff35a;0xd42affd02276;0x5dff6e83b92ec;0x3e614b9bfcf8c;0x6a8aeb66b8983;0x66c52c45ef1f2;0xe7c1853c23b];[0x0;0x893272c3c8aa3;0x409d24d9e0098;0xae034b0775834;0x328d991958c3d;0x64cd3ef64e5be;0xa6d67fda06513;0x89ed10cb6a9b9;0x7860c378e0121;0xac08b83f9208f;0x9128d51ff904d]];
 [[0x590ed6f052575;0x7912d55465f3c;0x2c3812621db9f;0x917b4921ef163;0x7772451e10fb6;0x2ca5809cf8968;0x64ff07a55e8c8;0xf533ad97bb9a9;0xb47254deb3d21;0x72118cc638];[0x1;0xb19f79e1099b8;0x321eba419ee50;0x441cdac5e8d79;0xcc1e5e5a4d7a9;0x52c5b1257b80e;0xe96b44a11ed7f;0x968f52d52583e;0xa30343042b862;0xb00f6489cbdea;0xf299a9bc9a4a7;0x1];[0x1;0xbcc3dc4296569;0xda8854026da30;0xf3c232d7eb53b;0xe56c03479bb37;0x2f7475ceb440f;0x75d5a6409a5a6;0x5c13bde62d0d4;0x11dbaea7a8f8a;0x7d23faf4d32ed;0x15aead53ddc2];[0x0;0x16973ad62c8ae;0x8326efb8ee8d2;0xf9e177f412620;0x62871ac56b140;0xfca103d0b6b12;0xa4243c165a6ec;0x6e69ca8adf821;0x1fb3c27785493;0x66a0d2513af44;0xd888afd095c3]];
 [[0xd54126b952882;0xfbc2d799486ac;0x83ca37d06523c;0x5c175f11ded03;0x2e5bfc6e0c231;0x5eb33101c59b0;0xd0d23abef81d2;0xc20c4b45a349e;0x9fe3a036ae57c;0x529ec2cc6b4];[0x1;0xbdb723cd460c6;0xe0cf426b6a57;0xaee5f59c0f63a;0xd482cd3fe0870;0x3ce85a34ca87e;0x4fc58d0667e55;0x4935384788f5c;0x6f6c2c8260817;0x7f9d368085ede;0x5c2c697b81a71;0x1];[0x1;0xcbf57861c47c4;0x9a3e88576d968;0x9da4376f9ae95;0xb88afb8dd5242;0x19a1cadde5a3e;0x229acc9b74660;0x4d0ae1541c6de;0x6e65ad9ebfaca;0x9fc238c45f99;0x195de88a03d3];[0x0;0x9db59ca80bf52;0xde983deecc6f;0x5af6627bf8b5c;0x1cc960913daa2;0x6a9b6dd129422;0x5b9d110f0febf;0xa3405c6f0bb6b;0xc3af10d968059;0xfc9b2c05110c2;0xa513a7c1e6e15]];
 [[0x674e470b6190;0x48015db9c4b29;0xef1e04f5d48d1;0xebdb6c9aeed85;0xf3a8388ee119c;0x736cd7d6a51c8;0x3350d73e0fb24;0x7535035e3a42f;0x617758afeda5;0x43bd5551897];[0x1;0x6f4a233953c30;0x211254ae7c217;0x15de5d8197d83;0xf5966d48deb1c;0x536ba0896dd04;0x254d383b3bdf0;0xec5017a2436b1;0x1004392093a0;0x72b32b97c218d;0x796180b4f3c2a;0x1];[0x1;0x5b01ad0f0e100;0xf52f51a0a141a;0xccbfd6e64b154;0xbb0f3e2a121e0;0x56023f81b0a8c;0x7a4497aecac6;0xcf91aefdb9ae1;0xfc66b8beb2e0b;0x3f025847e95a2;0xe24f9b30f94];[0x0;0x41d2e6680fdc0;0x10da7ffc10128;0xd0dc1649978fe;0x5dd390d66824a;0x70560651ac446;0xe02aad7318e79;0xa755c054f1e3c;0xad228980dcb9e;0xbc78b9077c875;0x867564d3aa8bb]];
 [[0xbb177b563c414;0x9458db67e201e;0xa6d0dc1e34df1;0x459b5665280c2;0xd8ab0f9e3a89f;0x2a612d8a34bcb;0x2ed1ff12218e0;0x5a59ad86e255;0x1fba4d1144b26;0x70848af3545];[0x1;0x7700bb7b4f000;0xd26822a84a19b;0xa4ce9f49f08d6;0xffacffeb2b587;0xb89aee9c86ea6;0xf330d28b14d0d;0x1c057790fc943;0xdf8554fd47aa4;0x2ae06c9ca2a34;0x1f19fd85885ae;0x1];[0x1;0x87c233188e090;0x3d8370278f6bd;0xad4705bd687f5;0x8e8f0998c67a3;0x58f9af90a8fc;0x35501f1d07840;0x48eaa207d6173;0x9942a5509c0de;0x6602fcdff2737;0x5a0fe9b77f5];[0x0;0x255035cfe3958;0xc94bc05f13514;0x7f104b5f3e38b;0x99188592ff274;0xbec5b6ac49f5;0x1fe15b4f01a0f;0x37f2cc741d588;0x41a8e74d2ab3f;0xa61df286946c;0xe070f6227a671]];
 [[0x8b0df3e04b137;0x29101bdd7f6a0;0x88cfb8f07c530;0xae7a9e1d64021;0x54f8eaabf0c73;0x506a34b272a28;0x1b581461acafe;0xa8bb394dee7ff;0x7c8060275c902;0x229f1d83406];[0x1;0x12bc2c7d70185;0x564628a92eac8;0x9f623add7d170;0xf3d82e424abd4;0xe8b59d8c687bf;0x9440b122c3240;0x63afe044bf3c5;0x74832ed24c0fb;0xde4a800d58955;0xbc31205ed1613;0x1];[0x1;0x815967fa2d641;0xb5f617a7bbccd;0x45a7b283c060f;0x548d4790c7059;0x28f3093bba7c;0xfefbfd1f811d1;0xa03b98032e611;0x30c9e354ea972;0xbacf1c43c1a81;0xc23f21b1b75];[0x0;0xe51ffa2175760;0x857587a362cd0;0x490d0c2c86ed1;0x1f0b046084a49;0x1c002d992ead1;0x7059ec4677e11;0x2ac1454d15b88;0x5a41df38b890;0x6789bb829b119;0x44f9d70ea400a]];
 [[0x879e4db42a4f5;0xfdedde67d447c;0x57051a149a5a9;0x2f45c93770cf2;0xd52646987e905;0x183f32feedd19;0x5ad967d52241b;0xd2880f53b647f;0x936431f8d3eb7;0x2bd91c9b9c2];[0x1;0x5ec3acefbf954;0x2d01c821bc74c;0x38756dfc94ef9;0x3368830961ae7;0xbddadf2be827c;0xeed8d43345f19;0xb7d8b0075e1ba;0xd9c33d2cd46f2;0xc35148886cb96;0xa94c7f2ae7dff;0x1];[0x1;0xb18298b2f0069;0x79677742becb1;0xed1cc30068004;0x8488ed6f9e641;0x144647646534d;0xe09329e995a24;0xcf98320f34ce;0x470044dee5d00;0xeb98129e178a8;0x12d9825fcd2e];[0x0;0x795f968842086;0x2a43423b247fd;0x9488c80fbf85c;0x70259f80c0b4a;0xc0af35af3ac75;0x9993618e2b150;0x28121e6678c55;0xf0a8796091264;0x51153589ec34e;0x56e1373411d7f]];
 [[0x80651549771ce;0xdfbaec56ca573;0xfc73f89f469dc;0x6eaec1d1f41b3;0x18ba1d1e54f85;0xbb514c3fa1c3e;0xbea022387b554;0x3cb2e93a97f99;0x69fed7d4ab6e2;0x734ed1a22d1];[0x1;0xd00b26f8a2802;0x99657f376f5ce;0x27a9fb7f311f7;0x17f94dfd95b97;0xf0f0db8c1d281;0x7c143e665ddaa;0xccfa787e0dd7f;0xa055587816375;0x6afddb27aafa9;0x1a3b28f786d13;0x1];[0x1;0x50ce52a588b84;0x323648a1c2de7;0xc32a8ab40b4a1;0x3d608a4516bc5;0x773be1b5a75a0;0x9cabf33289716;0x251996f5fd297;0xba68ceb3a6381;0xaa2796996471f;0x1070ac303fbc];[0x0;0x3321445a603fe;0x4e5663c56ae99;0x73f1159a66ff8;0xa8bce85da977c;0xdf592592eb3bc;0xe540caf427aa4;0xab079d35806b4;0xd909e8a86e30d;0xee43e2531bddc;0xe633f68087826]];
 [[0x9d95d0f78a2b3;0x9a2a72585b112;0x50cb11ace1d5b;0x9a618d639091;0xc0364fc072748;0xbcf704dafce6;0x1e05fc9558635;0xf115608813333;0x9e66f8b3c7a3d;0x753c0ebfe52];[0x1;0x62b3abd7a275d;0xb72d1030d0189;0x71e974092cb93;0x75ed171fe9c8c;0xe4599f2423ab7;0x8963b3512364d;0xcb721ba892dfb;0xa14c71cfc0b68;0xa689c4a1da9f9;0x160f5139c91b2;0x1];[0x1;0x9f4658ce3d419;0x945013b02f211;0xeb30c54ac00c7;0xad8b0f54d5f21;0xb8e9c4dbb526f;0x7b2dbcb33e3ad;0x80c38f10f5728;0xf086f2b8c9a8e;0x2704358694016;0x118d8d8e5fd3];[0x0;0xe7392f7e7ab9;0x88c72ce38ea3d;0xe8eda7d71c3a0;0x7643793b81196;0x888499d54c156;0xdf30ade9289fa;0xb1e35a7d8a499;0x94d0e3e663691;0xcc15fb03ec51d;0xe9f2c93e3ad86]];
 [[0x29adda50a2725;0x4d11855c91258;0x1285c6b30a2f;0xc8d6dcd56149c;0xb8aa90a37c54a;0xb6190353e97a2;0xbfd5a1528f9e1;0xb9044462f3e5e;0xdca9ecdddb699;0x3569ecdd219];[0x1;0xb4500a5864ca1;0x6088035b5e81e;0x33beacd11db48;0x27c0ea29cf337;0x9733616c421f4;0x7c8e5c2253fc2;0xdb9d62f2b848;0xc5e8e39f1a593;0x8591e696b818f;0x96856971e09bb;0x1];[0x1;0x96bf50e5a3b49;0x95a95d379149b;0x72ae78c25f15a;0xc18e95558c392;0x59b879d98cedc;0xf247d1536b2ca;0xed4359c7fe49b;0xa944564da57ee;0x882d24dd4a75;0x220a50c86e2d];[0x0;0x5baab063cc695;0xc1cc7f6f39761;0x248bfa0303aa;0xc59ff9630b1ea;0xc293184224f7f;0x2dbfb65183836;0x4e693dd128a28;0xdb332d00828e7;0x14c33ca2cf2c9;0x6a01b8cdb21e1]];
 [[0x9baf37701bdb4;0xb30e5e05d05eb;0xbe85a5a07bb38;0x5d5f761cff693;0x277374a354d80;0x8a2bde3b9c389;0xe93cd289f7755;0x127b7ffb0b602;0x1699ec0c9f9f8;0x169fa69886a];[0x1;0x20f9380659d64;0x2c52903638ec5;0x884395ee85e50;0x61ebbf1bbe53d;0x418e0d8f2ad5f;0x1b641ae62c;0xe32bd6f723ff9;0x672b345924fec;0xb6cf5b4d53326;0xd37c1fad6f693;0x1];[0x1;0x87bcd0aaab590;0x73298c26965c2;0x987dc2923f14c;0xf5b90034461a1;0x99daab17744f5;0x89e65c28e7b3e;0x4236efe254c83;0x80c015f4bd234;0xf8ea814554209;0x23d32b80a3e8];[0x0;0x1716d14da74e4;0x2de5ca1049291;0x7970687ee5073;0x26e80097f383f;0x8e6841ac63aa;0x9ea0207f75272;0x42ae070e63083;0x1703a59daf5f3;0x4e1809beb7b6;0x2c55190b03106]]]
 (V [0x1cda606b49324;0xe32e0886fd87c;0x14779aa1ff6f2;0x62bd10369d1db;0x7e5a6fd5c752d;0x799d79d0bacd0;0x43627114f21cf;0xd40d3739a6c62;0x7c64df1864b52;0x4feb18053c3] [0x1975dd3b0984b;0xe6ad717035d26;0xa892586d853d8;0x48e6ff73bb4d8;0x6b7dea5379a66;0x199a6c906665a;0x5e0b9fc82926e;0x71f4a30f40a30;0xa33a3cccc4cf8;0x4cd69093ddc]) [[0x2e26c71293fde;0x4d2cc0097f981;0xd360bc6485cd9;0x8668a5e728d1;0xc6ce7dd9f340d;0x1867c85ea96ed;0x2f9c9c204769b;0xbcfcfdaa18f8d;0x934f3929c62a4;0x1270789dd81];[0x1;0x6c2bf9b95f2c6;0x9d133755ffd0a;0xfe682dabfcafe;0xc39122cf078b4;0xd832960e685ee;0x681cfcbba8b24;0x4d6e5c8589c64;0x8822c9cfe3db7;0x6b9c1f9ba75b6;0xdc076d1958c76;0x1];[0x1;0x75b90824c0244;0xb121019703200;0xbd9c2cf62b56;0x23a29697f87f8;0x2f98df75ab8b2;0xc1fc4733f1cfb;0xfac40470433bb;0x8929835976d36;0x3602473e58167;0x213f2de7e0bf];[0x0;0x48db4d5fb9de2;0xa526a6ebf8b9e;0xdc830b49beaa5;0xefef471232af6;0xdc5eb021ac3ea;0x90cfc5535a9b0;0xe9574f5976186;0x2fc39f2e6a786;0x4ed201fa41712;0x243341d085d19]]
 [((V [0x595d8e208f8b1;0xef8ba9d156fee;0x21de6677b5863;0xf6fdeeb092448;0x3b68582ca4420;0xeaddf886d2e75;0xceed100068d54;0xce28f0470f796;0x744ddf2e6d263;0x3b1d27804ec] [0x4a96ff37283ad;0xc5147cce0a45a;0x88e493b68dba7;0x6db132cbd1594;0x94420b297750b;0x2dec9a5035d60;0xb4aa14e3c57ae;0x114d735af5e6c;0xd20cf50b7091;0x3db2bd0d36f]),[[0xad2d14a8445c2;0x5fd2a1baff73;0xf1d851c6deb4c;0x63fce7f7e928f;0x1fffa9cb33358;0x5ee44d756f4c3;0xab033f69716ce;0xd8586e8b82d83;0x48eafb8626f7b;0x627e4fa2eb9];[0xf19c76295787;0x1dfe612da4e5b;0x9e9249fc284b;0xbc33c4e650c40;0x638fa504fc889;0x898cd87bb85c3;0x50b6cdcdb8123;0x8d83072bcd04f;0x5482b8e0a4d9;0x25d5347b929];[0x1;0xb23e21e222410;0x9f979f905e7d2;0x812a7e707583a;0xe562ae6d9477f;0x5bdae0bee1ab;0x8dfc6867f6e81;0x77068b2db9fa0;0x5dc362f3ea6d4;0xbca55a5f90bc;0x19c48786771];[0x1;0xe371bd0d646ec;0x695e35ded610;0xdf591b449ae52;0xc9f265856f74c;0x42f032d6f78ce;0xd0b20b6cfea6b;0x2351f2cee996a;0x7c1fba2f64fe8;0xd037c88711deb;0x6cbf0779ec3];[0x1;0xe83a50b24bcc4;0x2e042ac7dd155;0xb7125708a8e23;0x913011e32a25c;0x86706ecbb5800;0x41d5c838c782e;0x337f528330e67;0xc433ae3a83d2c;0x671d44dded8d5;0x16a1cc87f1b6];[0x0;0x5d9c5b60d68fc;0xf906663492881;0x3437dd5de8d9a;0xf9157eabce79f;0xaf3e76d59c1ff;0x2409664198019;0x6687fb2452118;0xe610b53188bc1;0x7043410308f8;0xc45a0d2e08094]]);
 ((V [0x15790797bd860;0x7f4e9c4a79863;0x3d73f78bfc7b2;0x8c77248436272;0x98a8ef99f43b5;0x7f76638d87f8;0xe4ff17969bdf9;0xa7e2353ea2909;0xacdcc9cd2be92;0x7ee5b2960ac] [0x17acf3915d26c;0x80bb0cc5c7a7e;0xe751eca240de5;0xab97efd8b9777;0xcb2c14dd27a4c;0xac6326a307384;0x9ca260aa4f8af;0x3b1b76a6fcd8d;0xd021469c1a8b1;0x4676bb58aaf]),[[0x315f735130c87;0xb8df1d294fa0;0x2755d18c81dee;0x3cf65540a84ec;0xb7b46b6c18d93;0x816177ccab48c;0xada753e9e5c3c;0x349b41542e5e;0x85e83eeeb1192;0x62072daa46];[0x4aae56b1052c0;0xd41bacbc002f1;0xbfef7708e72e1;0xa32ed093bdec1;0x6b5ff5dd329dd;0x7e7983223c841;0x3d0cc32c58438;0x24aed9629eb94;0x8c249aae22181;0x6d6f162d5a4];[0x1;0x60ee1caf2f5d1;0x5d8aa5ec74db8;0x9712eb643f3b9;0x2457c39e1a88b;0xc57b4da087b0;0x9f834fbd84990;0x50b31c6a1e438;0xb5070869f38dd;0xd6e2c58485a65;0xbf91454c799];[0x1;0xf9c4dd4ee0216;0xbd0b77a4c2206;0xf19cc47fc502e;0x8146e2f708eeb;0x33c2594fdbea2;0x3afcd01ab9936;0xd392885eb2e82;0xaa135bdf5d31e;0x60bce14a9285;0x28ab27b3f31e];[0x1;0x91fcab22365a1;0x1db7e41994e9f;0x64b8fd1d9e62e;0x4c8b616c91d05;0x7877a6f0d59e8;0xae053e901b4c5;0xdd43920099f18;0x96aec4be3fb02;0x7c7b2a5da8d41;0x1e9f4f02efce];[0x0;0xf9a6248883cc0;0xc4df6deea772a;0x86d17f3fa3725;0x1613ce8fdc924;0x709ccdbe2ad1;0xbc9f305fc5859;0xef77859eaa433;0x738c30243881b;0xe1f284163bc7b;0xb3b74a1dd828]]);
 ((V [0x957edef571a81;0x673878cbca178;0xb7f6fc4589dcd;0x1a1185341ed38;0x7b798dce49466;0x339cd2c57a522;0x60d18a97f1d39;0xedc64dcc8b5cb;0x1414b6946ec7;0x35be7d1807c] [0xc470c11006d9b;0x7aee4eb8983e0;0x659f916a79d37;0x795dd246e838c;0xe8fbb3a1d391c;0x5ed30796fd0d5;0x6b117b1e816f3;0x8ddb911914150;0xe43898d5a6109;0x2ba60547377]),[[0x44f65adce1540;0x35ff83df00694;0x6f0c07946df3a;0x3c97bc025873d;0x47e04706b5411;0x1addfada91357;0xb3f0fcf8e4a53;0xfaebacd046ee5;0xb377c5e0796f9;0x391997dae38];[0xb1bac8dd0e6f1;0xf4d307ab9b19b;0xb127f3c4aa3b3;0xee0dda627b850;0xb172089260b21;0x944152e0fa7e0;0x6882179c9df73;0x942e3fbd6a7e1;0x2ebd5a6653f73;0x563d495b962];[0x1;0xbdd7492b5e400;0x913d0c73f994f;0x77e51cebab43;0x2dcbce1d7e272;0x486838c50a7ff;0x4898915efa393;0xdfbbd66ce268c;0x7ed52424f214;0xdf6f2bf4e1870;0x2eacbeedccf];[0x1;0x8a2aff0750e00;0x1af66837e633c;0x5ea2a4d9df982;0x8aeacabc02bf8;0xaa8aae401fc2b;0x352d98ba6fe0f;0xc7f98778d733f;0xb7fcbf01d885f;0xba56b2fdfc5c6;0x1c691cbb83ce];[0x1;0xe083027e29000;0xcfc8b91c2396d;0x7892708163676;0x48a8ece092cdd;0x8905e7b7fe29e;0xb484ebeb569f9;0xb350e4b57938e;0xf438f9785b847;0xa986252818cba;0x24d9af42b425];[0x0;0xbc30612b3de80;0x35ae0546d82d3;0xa75e6457e6ac9;0x2daa91564f940;0x2592c7d8929f8;0x6928e2d3f4be1;0x9ebfc1a516885;0x66c5945ba2e11;0x7df23fbbcda19;0x71a8b1e2a61ee]]);
 ((V [0xdfb0a5b1e79b4;0x92e5ff312ba33;0x7c2a62ec9ce93;0x695259933cb2b;0xed754919fce76;0xeb9bbb438bbe1;0xe18dbc9e2fcfc;0x27a9db35f018;0xc7236ce15c430;0x7b579f9fb8d] [0xbec6d927d79a6;0xdc1d361e2da56;0x8ce52ab72902f;0xa8d18174c424c;0xe630728335c85;0xd7ac515cc18e7;0x669b5f659a1b6;0x62683488504de;0xe3da383c509f6;0x1511eef5219]),[[0x898d094b398bf;0x11d1e6ab6f3b;0xcb6b92e1cdbd5;0x7015ef8569385;0x44d4fe1e8e3bd;0x906234f9851fc;0x89048063e692e;0x8a17b724b1f82;0xc21ccfa1638d;0x6a885f18e72];[0xf4be3ba93763e;0x9d290d18062ee;0x26b80aaa6aa7b;0x19709ea7fc964;0xaa9399f05706f;0xbc2530ced2524;0xb969712a0853e;0xff0a9bd46bda3;0x7dcfd7884afdc;0x2977ce15ea8];[0x1;0xe68eb4c5b4671;0x35ef953577076;0x41b83723ebfa7;0x8d38e8107ee8a;0xae93e60bbe1ba;0x548b74ca590d9;0x4eb62f6bd370a;0xa6589d5157826;0xcb3781ca04c86;0x3c5ec118150];[0x1;0xd8641f5e9f7aa;0x2bf900160b66c;0xb426a0be9a322;0xfa226cdb77f05;0xfc935c8e19096;0x5633863e09064;0xc9fa64bb82173;0x8f60a7132b64b;0x6de3eaaf3d81e;0xb026da1ee83];[0x1;0x2a357ad6bd7f1;0xe654c66480905;0x6b2816125fb61;0x850a45b524fc3;0x48726a7f34bc9;0xf0a7fb7e50166;0x50efcb34ca1b6;0x24149aedf7999;0x8d1b7539ceba6;0x174fec4d3f65];[0x0;0xcbdd735ec287c;0x3f640678b4acf;0xbaa766b833bb5;0x668f1844448a;0x251f3f971a0f7;0x39490c252252e;0x6147ea92df378;0x723ab465c9472;0xf24027028af9;0xd4bfe9b16c359]]);
 ((V [0x2e353ea9483a0;0x95e2c51c5962;0x30d032b9b9820;0xd47d7a01dbc5;0x6a13cd3cb1953;0x32b12a607109f;0x1929633169a6c;0xa69c930c13a80;0xee3682e5e3e2;0x5f78b37de37] [0xbd4632b788f92;0x5dfb458b7dc7b;0xcc6e62157b9a3;0xcc2029d5bc685;0x22e8205b6d310;0xfa1ccd3b4e141;0xba1bf5719e45b;0x16b558f9b3e28;0x916db886389cc;0xb7a53c5751]),[[0x4278e22cfacc9;0xd5b87525dbf3f;0xa2ac0223f0389;0xb57b843b5af6f;0xd470d893eb5a5;0xb305e528230a0;0x47f004506ea21;0x40f8db898c37b;0x639c0160afec4;0x5de92f2e0c1];[0x2b61eceb10536;0xb21321844ab6c;0x5c25a4d6b9ae6;0xb4a5b79ecf66c;0xe7178cd5f6e6e;0x51a0f6ea2c7f;0x44f4554d6764a;0x6a2a924373743;0xf240bebbb4338;0x1903142d11e];[0x0;0x87f3589baea70;0xdf46749fe6cb7;0xa0b0652a63962;0xceb0b8d1346e9;0x1f7cbdf68cf39;0xd30d20b9ecb27;0xf3aa8f2156f1e;0xc5f944155bb74;0x845a6b982a05e;0x44d47a68979];[0x1;0x7ac5b92882dec;0xe2cc7436fe8a5;0x545b47eb1727a;0xcec4cfe5fb8b9;0x7a40b09dcd4ff;0x678609496f1bc;0xbef29ec18554c;0xc300ac3d2554a;0x80fc1d42af119;0x7727a4ffedf];[0x1;0xa43771d5ab241;0xf70c2932d5bd6;0x7584a96cc074d;0xad88dc53c6323;0xc7d244b790bdf;0x5e69cb04cc31d;0x2c23075ecb40c;0xc3065facbf682;0xb7701db43dd58;0x26769641debb];[0x0;0x94f7edacee655;0xffb938cd01032;0x55724f8debac4;0xa678d97daf47d;0x9d2bcfe4c00a1;0x3f2f08c5ecffe;0x62f8b1b9bc4b;0x7023746fa2c17;0x4b2199a254db4;0xbc03a1c371573]]);
 ((V [0x2b674285960ca;0x5998b4f61cfd;0x91195b4abe931;0xfd4e872ed583e;0xe995497935342;0x8c93c6c3c199c;0x38ee6bbfbd8b0;0x3112e5e1e666d;0xd19b6e3f528b0;0x556f28d6c91] [0xb44832e0aba;0x558374aa823f4;0x909fac805b726;0x43a3a4fbe8c99;0x3c23c9f932bdb;0x8378dbe8d27ea;0x7e387dfa94e8f;0xfd0d2ff3b61ac;0x45cf4a65bd139;0x120b17141b3]),[[0xdabab03479627;0xf04886e6342bb;0x7eae79f143c39;0x5869477c3e9a0;0x88432d247cede;0xb4b16b700364e;0x6d48b2db5af7f;0x22e939a8be5fb;0xf9f177523115d;0x4231e70a8eb];[0xf4a974abcc6e6;0xe0b5a859a75ae;0xae97048de3afd;0xda1cb03b81fd5;0x62d1063faaff5;0xc72b127f393ac;0x7949aac1bc639;0x3dc64813d6431;0x60ccf2a83bd68;0x67b3c32c5a9];[0x1;0xbaf33c10e400;0xa218bd4bdc538;0x50a54e0e2295c;0x9fecf12b2fc1c;0x723f824612794;0x111e71b65ab59;0x5160214c1b957;0x2de57b0e20c05;0x370571d902462;0x8831ea184fd];[0x1;0x1f5219240a8bc;0x25c92a6d27f87;0xfd8ccb350c006;0x5a3696cc0deeb;0xc7bc79657f0d;0x59fd196c94e02;0x89eab8a5c5988;0x3226b9bf2ef98;0x1351a05bfb4ed;0x26257798ef08];[0x1;0x6f5bba4cba461;0xcd0cc0b42cb8e;0x21b431050a7cf;0x338f481ff10ba;0xb108feee509d1;0x2232ecd03c5de;0x8918efdfd4a19;0x297e4ae09701b;0xae967456439db;0x2068595edb7a];[0x0;0xfe9fcdf81342d;0x5debef3732803;0x5d119276009c0;0x37614a43edb9c;0xd2896100fefe6;0x10edf9a5d24f2;0x738e4529726ae;0x1a07ab6287b8d;0x83723d4513758;0x847025fbb8371]]);
 ((V [0x8cc4de317dfa6;0x22037458b39;0x37668dfe1a5a1;0xd6553e86981bb;0xd149912529ea;0x98159612fa6be;0x90a3a14d8b60a;0x59ec7de8007ac;0x970865d97ad8e;0x74aba490ddd] [0xc5e28fbe9528e;0xa614ca12259f1;0x54b75996efbd0;0xea398af310a63;0x26fa80c49f1f2;0xeeadca334797d;0xc18fbb66ebe8d;0xd74f1ae6ff466;0xc77cf7597d505;0x32a71934319]),[[0x698422b705682;0x611425b2aa05d;0xddddf5fe1c9fc;0x33a6c80bd38d4;0x658b7fc822716;0x85afcf922a03b;0x5289871ab50a4;0xbabe1296f9067;0x7dc193b362116;0x5093f84e945];[0x355b3301dacf3;0x33fbc65e7701a;0xb99f5369018ec;0xa010d63305e6b;0x3ae4db69d8eb9;0xcb6dbd5bdd447;0x59f0f027eab9c;0x85589ea7113de;0xa345737cb5a57;0x6b3b9bf1f52];[0x1;0x62bd9e9efbf24;0x1b8378a5c34e1;0x5963ed2cf88f4;0xfa5d8f2b16971;0x754aee4fb710b;0x6b77d62dc0b0d;0x3f36cb32a7580;0xf2c9262a1cd24;0xd4df30a44080e;0x9d71351dc5a];[0x1;0x72b8493866a68;0x235b3de2a5c03;0x3f1e57d66a8fb;0xc781b1b62819f;0x45fc934c87de6;0xf1b56ed965c53;0xde00fdd50e2c3;0xa83f32500be87;0x8d528d2443f58;0x26cae13587a0];[0x1;0xf713674837fc4;0x5d1c4e82b2a71;0x21734c2ed9e45;0x34935907e24d7;0x8c097fe30e562;0xd6ff0c8de3a2f;0x47e124f18d78c;0x1ea13d9737d0b;0xc0be94b2ae6b2;0x20c5a4b0c708];[0x0;0x8f028cd3306ba;0xeee4f9f2eaa0b;0x770e2266e2580;0x3c5fa6b922f02;0xcf6af1ace6701;0x4955c6e5e4e3d;0x8e12c60684728;0x597524d0aca6d;0xd910728efeb46;0xa0db764b83e8f]]);
 ((V [0x715c87643593d;0xba7eaad0afcfb;0x25f7d6373a07d;0x2277d2a24b706;0x9e2cc41f6d0d1;0x229801a1df7bd;0xe048b3d30df44;0xf006e41acab29;0xaccb85e078d1a;0x6b5e49e4aef] [0x3fe65f0dc2790;0x6b591ce355fe1;0xcdb17f7b8cee1;0x109e4dd2b8e0a;0x3dd3c8c646a13;0x8f1f35783085b;0xd9b92f9b44de8;0x6fec77ec2371c;0xd7e3bba9f9efa;0xd61ee532cc]),[[0xaf372cb290df;0xc521bc620140;0xc413fd935e14;0xc2cf23f1e4591;0x2680cebcb2353;0x430dd1e3743ad;0x64f8666149bb2;0xe817a38abb003;0xfc0884534cefd;0x3f00bf60678];[0x232eefe31ecca;0x404529b115dd1;0xec3b9f87997e2;0x53cdde4aeeb3d;0xbb27526786e07;0x30147b0b56250;0x6bbf50141a255;0xcd389f84ff2e1;0xd40003cb0e7ff;0x1bfd095c4b9];[0x0;0x8f0e3a925649c;0x6a9b22d2fb108;0xbd0de85fb7964;0x813aa92dd870d;0xaa2c13b21684a;0xe43d3c2f55284;0x630eba7788279;0x4897ba30f00a9;0x4395d915af3ed;0x325dedb8818];[0x1;0x8ef3385cff324;0x63ce4a65051ef;0x17a0590036817;0xc400922b12599;0xfc72bebf8e293;0x2218fe145bb7b;0xd916545e559f7;0x95e7c06e64f58;0x5356a5e325f3b;0x761123e3690];[0x1;0xd093941df7fb1;0x53bb09f331d84;0x48eb24ee46e46;0xbe1dba57c86e8;0x223233d05869b;0x2a7782b690364;0xbc28d0f4e002c;0x4cdf3d85943f9;0x7dc57604c5e6f;0x28a6869a8d14];[0x0;0x877467a6bee58;0xb4d914f5c7a02;0x32c46350268;0xda8a08b5e1e66;0xa2bb39d895e9;0x8bab924778f3a;0x22c34e95105b1;0x327ef99dd999f;0x61a0edae2bbc2;0x7dc50191a9f82]]);
 ((V [0x4f226d17f1c70;0xb1338aadf7be9;0x59628ea82c7a1;0xcb48b684e44b6;0x19610db608015;0x89a41442ebaaf;0x9ff33f8f621b0;0x2c2125ffa9313;0x98bfb0f1db647;0x7ea6bcb6e42] [0x5577913be9b1a;0x74b3e4cf2fcb4;0xfa3861d3fbb6f;0x1a260eb0fa218;0xd9d4ef3450918;0xaf284be1c7e18;0xc26abdf9657f1;0xfea4daa9d9e9;0xf4fadbae02d73;0x5eaeaf79e2f]),[[0xf9d677761de33;0x8bb3639608f21;0x49662ea81638e;0x9cc25824e800e;0xe4c2618727d44;0x40ec61ebddc33;0x4407f1b5b9984;0xdf2ba4fb5d031;0x33ae10cf32877;0x448cf213143];[0x7f11f6b9c063c;0xb999407b49adc;0xb000dc2495c47;0x10cd4266e549a;0x2ee4daf46355e;0xe5f68353361cc;0xe35244c98fa8f;0xf1c9b2f4c5294;0x73b7e7675760e;0x1659f982186];[0x0;0xa03aff6eda287;0x518387a2e2e2a;0x8da828d2a6a77;0xd5e6a856ee8fd;0xb28cbfc1de46;0x5fdaa60f2283d;0x210c51a155a39;0x34629db856ffe;0x647ca5d4332f0;0x2d5bf5fad64];[0x1;0x335715abe5d60;0x43471762471b5;0xb40c57649d14b;0xd0878cfeab561;0xbfd56b2e5f5ad;0x912e1c10c13fc;0xc4d1f03dbab98;0x16c9523aa4547;0x87a6524393dab;0x77c652fc926];[0x1;0xfedfa4c77919;0x6ad7c5313233c;0xd8485ff57b020;0x72a7276bd093;0xed240a67d24be;0x4c7a3f2bd9719;0x5f8292be5a665;0x915a385da198f;0xb84fdf3426763;0x286104498eb3];[0x0;0xbf6f81948ec4c;0x1e4d8dbea0856;0x7a079d3b3613e;0x250d1428e3fd9;0xf206a3aec773;0x352586ee0f77a;0xf4d8b0fe9c002;0xd1599dea20815;0x2defdcf4f8e06;0x887bfc23ec400]]);
 ((V [0x7f1673d01b34a;0x6ecfaca2a0751;0x73c8b6befb38b;0x5fd98aa7bf271;0x5b2c29ea948b1;0x6ae8d257dfebf;0xed617db45d654;0x93aeb4af318d1;0x92c5583756d2f;0x725bc716df0] [0x276aadfd6b577;0x1b369d4189491;0xd7e738531b3cd;0x550e60874f78e;0x5c2b2f632c9b8;0xbde50aeb5eb90;0x6a4353fbcac0c;0x9176f80d3511a;0x2641c72bc3cb4;0x1ac2725c50d]),[[0x490768bf097b4;0xb2e3589dd32f6;0xc13e9fffc5e25;0xc446dce0f094e;0x43ec264ba0e96;0x14e37d765b79f;0x98bc4ba5d2a31;0x95f1662107b0;0xca2dc088438a7;0x4406e7858d3];[0x77fec7618a3f3;0x4aaa855bde5c6;0x6e7757cc9855d;0xeb18afaa3a8b0;0x897785374f41b;0x9a2423a1613d8;0x76ed2401e3624;0x9f821ae3bc7e1;0xe329a91a8bf7d;0x742cd41d1f8];[0x1;0xfd8d257672100;0x648ab9f0d5da5;0x4cc42bfcba4bd;0x95b0eb69e6740;0xf1f9ac1ee586e;0xe586604d00da;0xfc48caa566d3c;0x67d4574e91e08;0x8a4f52542c89;0x6b088b7f9d5];[0x1;0xbcecc27d1790;0x5fd9d42048800;0xd7f8be99b1933;0xf3f8be05c2c08;0xeed188c3834e9;0x101063d9a5809;0x84fa82dd6fa57;0x9a8bd578a506e;0x57b1d6153ad98;0x254692758b36];[0x1;0x44655d1444590;0x6253026e76487;0x8f270bf95ed7b;0x1b2ac2e7544ce;0x320131967e4c;0x10d804933585f;0x4ad80cfb6ef53;0xdec1bf26fb0d8;0xe48bf3c08175f;0x2bb2b2aac115];[0x0;0xa379d59ba1e7c;0xe1cbf434d2dd3;0x20994c8417a07;0xb79b133c3e4c4;0xe0979a556dad4;0xb566c2b2706f6;0x41b3283db2453;0x6948b8655680f;0x2ca8c4d1eed56;0x87657c2b303fd]]);
 ((V [0xce90eafb435ae;0xcb872ade35ebc;0xedd98dde02bb7;0xfdddf512cc969;0xc5d5033770d1a;0x1675d7c0d6985;0x627f5edb8e2e8;0x652d065a6118e;0x387521c38bcf2;0x406b55acd91] [0x62c5f7b7b6dad;0xeb870436ccf47;0xa3bd3ffed2a35;0x12867e41857dc;0xd0b97c1ed263f;0x8612dd244796a;0xa701f35393386;0x2ddb4c6a1c03c;0xb6632e6e955fa;0x2f79df5c64a]),[[0xc0bb33594e8ed;0x24694eebb2bd8;0xd785c691b7d7;0x9afa7d66a711c;0x1fa784cf43dc7;0xa93877ffe029c;0xa719e3d3747e9;0xcd97f76b32834;0x7c1758d964bea;0x227f678f738];[0x7e7d35a5f62b3;0x329d23eb639c3;0xba5f55d8a43c1;0x86ffc94b6a3fa;0x6efb17aa6b50d;0xdd933ac993b3e;0x175d67f93d100;0xa939cb35d5d55;0x78ea26f36dbf2;0x56cad0c8559];[0x1;0x6b9dd676c1124;0xfb6f8bb1fd44b;0xa08fe18a77586;0xa379133b89af;0xb95e78acd853e;0x1c010965cccf4;0x2f731c0933834;0xc2724825b91ff;0x883aacd0a8928;0x4769e521a3b];[0x1;0x4f6738b1009f6;0x5a8071e09492b;0xb77a5a9da0ba3;0xb9817f7d58b8c;0x68b47c2f9adef;0x4cf3a0a4f7c6e;0xda952dcddbd05;0x4f6df74137d7b;0xaf03f032cca16;0x1fa5452c91c9];[0x1;0xdaf0f01a87259;0xe910e966dc66a;0xf7608c77eaffb;0x97253f8bc9157;0xdd1767dd0e0bc;0x6ddf4c9cd1040;0x8a7ff7b45d28e;0x527028cee138;0x8e11ce6d66def;0x240f999e1247];[0x0;0xac80281e50e41;0x692ead19bc327;0xa830ac295a311;0x1d5571e631956;0x2afbe741636f4;0x70f036c65ba3b;0x36a97ca99bd77;0xe647c38576c56;0xb43b6421aa39c;0x449a4b761d3bc]]);
 ((V [0xc6d51c3e00934;0x27a3a9d532b0d;0x2d5cf7017c17e;0x295ca9bd06729;0x64271fe526b70;0x3ff82bdd70579;0x84ee073856ef6;0x69731d039162e;0x5ad7138bf4b8;0x468d7eb882f] [0x8d2b65a816a9b;0x428f3b6cf1a18;0xd16799959977e;0x40d7f03486661;0x21eb53480234e;0x88f9b3c401d5c;0x9c37a5352cb0d;0x7dc8567dd0e4e;0x25df9349edf6c;0x6ad655837b3]),[[0xe01206ea22804;0xa7d2e28ee0580;0x9f54e06cf0b61;0x7964a47c19ad4;0xf4cd5decaee9e;0x38cc581f103e7;0x9684fa34b151b;0x79bdca701fe2e;0xf63ac773016f2;0x3fcb3028d72];[0xfadbc516195c4;0x9eaeba574ba96;0xc220ad2c53443;0x246e34a9f41c2;0xc2a39c5be4f64;0x803b96726d881;0xb6d3ef553c0ea;0x3b4bdf9709d7a;0x818c3f826f413;0x18b76067c46];[0x1;0xf86f6219f4404;0xb53f0de77db91;0x1aa46a8ec016d;0x3610ee6a8bbf0;0x161de7776535b;0x930b0183af1a9;0xc82522c10602b;0xd59bae0b898df;0x943d8d2750863;0x11031121396];[0x1;0x182a7b1cac2e8;0xfae1e1d01968d;0x3c41c0efe6d9b;0xb8d052227d2ea;0xcffc3cd1872e1;0x66a2963a795fc;0x7aad61ded8a10;0x468ff6e42ad37;0x7154b34e259be;0x64f990457af];[0x1;0xe09b5f6875710;0xaa301e5936d83;0x7cb75278c7ebc;0x8a9f59f550a3f;0x61d8dfc3aa17;0x5151deed52481;0x19a497bf04d83;0x7eba622b2eeb1;0x2f41d397c9089;0x16efd0e3162b];[0x0;0xbdc43dfb2b09c;0xf4b1d88d9b7ec;0x239484997b8db;0x34478fbf0b5fc;0x929ee2f63a9b3;0xfeade3fdb7d3f;0xc57fece0de3f7;0x6ca0c73c78e97;0x46547c68dfe0;0x7e9e7c8b67dbc]]);
 ((V [0x6898a81520b58;0xd803bbcffaead;0x935e3cc5b2f0b;0x38fca8b95273a;0x2eef46e97143c;0x4611fad136e79;0x4360d54f7fddd;0x9e280f9f2f080;0x656ffc75da64;0xf5c47107e3] [0x59c57beb6a848;0xa785ecc5512f9;0x7b2532bc65c8;0x7b20d7d37b20a;0x5fbaf97e6f714;0xb7391b8083e39;0x8fefe0c77c0b5;0xf8870de82ee9a;0x9210da5ac8786;0x7a4a9a9ec8d]),[[0x629c85d8087d5;0x5b1f262746e2c;0x385231885a9f1;0x5337e464880ee;0xad39322882e93;0xa510c8334e484;0x8f215c91742f3;0x3c4b93dea3284;0xe6d2ed40d0525;0x698098c738c];[0xf2c3418e5bf8;0x4f6f99dca178c;0xf7a4f2d51b323;0xa248f843c356a;0xdd3c18f99cedc;0xc68369c589fee;0xff51da70f59ce;0x5bb9ecb150ef;0x5123a31f9ed87;0x6cc2e59989e];[0x1;0x10d6eba0f6190;0x3d708eec3e665;0x3905e39064ffa;0xaccb58805a460;0xe02401c098bef;0xed6255a03a3b9;0xb59326a340a3a;0xaef8efa7c4243;0xe7bced8ed225f;0xb2a26c2f989];[0x1;0x5686eca35860e;0x1919e186543c8;0x58a8d98a15c16;0xc8384b2806375;0xfa2d0cc6ea9c8;0x86a0e24d0b252;0xa1d3d5e6c704a;0xaff6112a8a794;0xb1a102ea3e4f5;0x1dc731198e1e];[0x1;0xa38361295929;0x17b958317a744;0x902c28397a74a;0x90d2851f35620;0x2213069558f04;0x9b46e6fea597c;0x12c590358cafc;0x769bcddf8e704;0x39144172d6f84;0xe1f90d29ea2];[0x0;0xc0d95c6972489;0xea4bf2eb4f2f8;0x886cbedc8d084;0x5c94981346152;0x569517d4cdb60;0x72ee50a7fa119;0x2f7af48d9b12f;0x3c515b4074030;0x69b8bb6618139;0xd1cdee19b4229]]);
 ((V [0xe1f9619a3fd91;0xe52b8a7fdde1c;0x5bc7ffea6d4a0;0xb5147fcb5de4b;0xe4364c2443c3a;0xc22e544c475e;0xa85c27a32317e;0x2b8607e1a309c;0x792f2f4c141dd;0x570810cfbd1] [0xc70cdbb5f6f00;0x224612bf28e90;0x82037fb09e9df;0x2b2841c153a7f;0x703dc3f3f326f;0x91e32babaa346;0xd73f14ae54eac;0xfc4283c7f5b8;0xffd1c5bb931c1;0x6559f4852d2]),[[0xfaf22bc29d7bd;0x67e523dd70320;0x9a339b0451dd;0xa2bb5f0fc0f5e;0x89e126ee226b2;0xa76e6f88a88f7;0xd6b3671ac7b57;0x68c3f0553007;0xf327452455041;0x253707e873e];[0x2dcc20a5197cb;0xf42421702619;0x611dcbcc446be;0x4c03301fa29aa;0x997924df69d1d;0xd99a096f92597;0x29894b08267b;0x2d3ef78521c06;0xe3c00c9ead4ca;0x10eea0995b3];[0x1;0xc4953f2432a40;0x6b36913dcf446;0x598332ca48f04;0xab06692bb50e0;0xf1a92aef9f52;0xcc102e1ba6cb7;0xe822daab28fe7;0x1ba27e70d67b3;0xf6c8bcaa62ee8;0x20055e0489b];[0x1;0xa5a8d63083d50;0x5e1e90b08b6f4;0xe08325a55b28d;0x561cc048776c2;0x75b25b754273;0xcce7daf422f33;0xa955e8e314b18;0xd97397b3f7f11;0x24be9563507b1;0x1e7b7afb220];[0x1;0x2faf4ae56d679;0xf6744e093d12d;0x2b6f7f675888f;0x248c99944af5;0xff3bcd9ef0409;0xe08409288d5c1;0x446a5e8017e8e;0xeddc7fd3ae8d5;0x9be186a35fb04;0xe0af55a643a];[0x0;0xb300e3bd49302;0xeba8756fdc508;0xf4885e1e1f867;0x8c9e347e8f292;0x2c0e6a93a54e1;0x47f519e3a384c;0x2015d454ac15b;0x962b7ebab67d4;0x59df00664af41;0x48bf2741f8e09]]);
 ((V [0x7e09a0a8459ff;0x11f4b1aaf725d;0xd903cad3efeca;0x7a57599b22b5b;0x7488c332b2ba;0xca669c583022;0x484c1f19af3b2;0xcf6023193f0b6;0xb96ef09ffa6e0;0x74521e823c2] [0x36980b7003013;0x800211b983500;0x5db18211842df;0xd5b30e794730e;0xbc9dbd2b8052a;0x26cd7e56c4569;0x6eb34b68092ab;0x3ee695ad679ce;0x565666e6c7424;0x6a792a14c9f]),[[0xc3394cd4c0278;0xfdd2e19526df6;0xcefd7831c356a;0x83cac6dd8b20b;0x414b0d389152b;0xbde96c77b80db;0x82ad4e88199a4;0xf7f93c2060b8e;0x697ff314bfec5;0xf9d4fc621];[0x183b27fe7aa05;0xfac2649855508;0xd9a1cb004a9;0x9074522ced5c3;0x7975fffb1f781;0x3e4b070e85d24;0x380f063331d07;0x3ed0abf87df55;0x3ad9ebd5782ad;0x5df4f9f940];[0x0;0x81afed6f4046f;0x92698bbcdde60;0xbcf9c9cc09b4e;0xcbc603cef7bbd;0xf903b11a13341;0xe20814ae69bc8;0x9fe80bee5d627;0x49855535fe6be;0x193e3bcb9f1a3;0x2f6e581d593];[0x1;0x96489d40b1000;0x81bd6eb8d3115;0x6915e44f3fab5;0x4e33cdc8d365a;0x380b44edc2ef5;0x8b1a17a443b32;0x9448d304d8592;0x8e77fecea1514;0xcae671f6eea4;0x21b03a787a7];[0x1;0xa8254b4b0f440;0xade59a8d66fa5;0xcd6be6f433f67;0xef9b1363de24a;0xa942529d40423;0x48102c9290e5d;0x41382eef77606;0x83c149cc9d183;0x1e3352e8a1cb1;0x244c298a3646];[0x0;0x56d41f87b8108;0xc70ca65040996;0xc4098efe85ddf;0xcf00391860810;0x60abf08dac10;0x26ec9a630a4f2;0x335feb5ed3a3a;0x90964883d4550;0x4248a59aacd22;0x54c465c194d]]);
 ((V [0x44752f3ff7e3a;0xec6c8261da354;0xb849da4062566;0xb02a6f65de643;0x14c18fbd0ab08;0x1d7c311895787;0x39f6a69fa9c84;0xe27e9bb2ad9c2;0xd26403af2d1a1;0x6e876fc03b3] [0xadd913518c81a;0x20c281d07e2f4;0xe2bb60a1ff698;0x780ce0761a821;0x49b4eb08e47e6;0x9a1ab64599df8;0x60a962cfe2286;0xff51d897782df;0x22a491fb0d03d;0x33b10a4cdb2]),[[0xf49388a5e9f37;0x13024915fde7e;0x214729b16506d;0x9c8cc68587e7b;0xeee2d4db9b17c;0xb89dcd2bb6d23;0xef325431c064b;0xf291c2fa905f5;0xda35a46d99366;0x58be85eba55];[0xc00837797e478;0x8971e432999cc;0x73a61a84b0dd9;0xafe7d4cf296a6;0xb47401d2ec505;0xbf4686972557e;0x4f8517abb911e;0x61561777613bc;0xb03650a473fb5;0x41acbbcfb10];[0x1;0x9fd62963f2d71;0xb272ea606b44d;0x9e48a2ac33ba0;0x81d23ab466725;0xa9ca792d98c3e;0xcd5b1d8c9270;0xf2f7748f384cd;0x214b803c540f7;0x45ca8ac96c2d1;0x19a46ba436e];[0x1;0x62edb4f359e8a;0x949be414be7a0;0x8610e69dc276f;0x27582edf22a57;0x2eb3ad80945dc;0x4dda85812cccf;0x16a1d9475482e;0x64c6ce5e3161c;0x338134fa49b4f;0xf668d680cf6];[0x1;0x1e19d8b48da41;0x39f0f75e3bae8;0x44879d3dbbec;0x8ee96a08bc4a8;0x6b4fac97fc0b4;0x53187f5837e20;0xb74a208de2a94;0x9fc9f88fd90c4;0x7942ae787a5ce;0x270d045cf441];[0x0;0xfb636f644394;0x6a1d709dac426;0x43a31d79a50fd;0xdf97e166abcd5;0x7e80549eb4c17;0x7754abe91cd13;0xb0fdc2570aec3;0x28b31038c3f61;0x770304dd2e34;0xb09d79eb83224]]);
 ((V [0xe28d73199072;0xd1c0649badfbe;0x1a548c5c8e65e;0xfb58adb41e3f9;0x6723db5e93d7e;0xf83440d0eec60;0x103865ef75123;0x91918dc2d512a;0x153abfa4ff6c1;0x17e74bcaefd] [0xb86b27defbf7c;0x9ebf07b0ec727;0x45a0ba2f5776f;0x9714a758ed10a;0x589289407563f;0x4e5a25b43ab65;0x73872f7be9503;0xeb4f535de21fa;0x7478de3676134;0x1e9680825f7]),[[0xa46dc55461b92;0x2fc04c26fe6fd;0xf220d81b55d1b;0xe27a03a7fa025;0x547c2383b5903;0xf1b6aef057bc4;0x47f9478c2427;0xe6e004e5d9c0;0x2c9ce058569b0;0xc5e116a05d];[0x10a85c70341d4;0xd344d37269487;0x545a1c3cb1e;0xf6b2609683433;0xd0ed8efd35ab9;0x939b859acb556;0x8f8361ad4a3b;0x8661a9130db6a;0xce7f2f8981071;0x5590721b644];[0x1;0x734e2887d08e4;0xc45f6ada06eb3;0x9c9d56d514d8;0x50b555246ca2f;0xcd7bc76657256;0x5073e8db9a099;0xe36bf478dd715;0xeaf7fd133cbd7;0xb39bafb2dccfa;0x4baf8cd647b];[0x1;0xe50bd3d259b28;0x7fe1ce026a465;0xcdb5a98feb8bc;0xeaba7c730c855;0x190aad6a598d2;0x795b5fdea38ab;0xadf969a1af5db;0xdc2a3d3ac82a;0xb9f5fc671694f;0x1f765809e272];[0x1;0xb12c5509f9104;0xdbcf09a9ef2a7;0xfe27fdfdada20;0x5ccbf87c56f6a;0x6dc09ef8b198a;0xa199578f78ac2;0xc678dc1e7b726;0x582f0a4ecd43b;0x8ab8c35cd4ab2;0x1e8ba6e31556];[0x0;0x10892407ab482;0xe4cd99dc80195;0x77c93beb053ce;0x27fe04b6851dd;0x415567da15117;0x19f77294dca02;0xd27d9b18d8a18;0x6ea848053a224;0xe44f3d5a8c407;0x182c507c99a2b]]);
 ((V [0x2c15a028a6c1d;0x5edcf1746df28;0x6f76b293a54e4;0x97e7e3855aed5;0xcd542910dffca;0x88fd8a242ef31;0x3770a2666992;0x5b7a1ea83ab7e;0x74cd5eeb17236;0x1307440d538] [0x871e781dc9741;0xa98a46f3047cd;0x21e0e597c2254;0xb72510018c9e0;0x8f47c6fba8b59;0xe5e0bd8105d7e;0x5bb39f77b6179;0xa3e39fc220d83;0x9179c22716fa;0x61ab3b0ba3c]),[[0xf94d964a3a158;0xb18a8a2a2728b;0x6d4730e78c502;0xdf7a319d02b80;0x247f67f1d99a5;0x523d27df528b6;0x27bfa5d4e3c0b;0x48040d3dcd2ed;0x3871e6ea3addc;0x5a03bfde388];[0x11165a7a570c8;0x475a270b9e5c2;0x2909b7a72db9;0xc799cb8bfb1d0;0x508c4f26591cf;0xe8fdf1acc2d9e;0xb0330b06ebf23;0x21cb988befb08;0x984b4d1e97f30;0x5cbc5ea539e];[0x1;0x8a093d1fbec84;0xca9f269acc3d3;0xb23a57bbecb1d;0x2f695fd0f38e3;0x980b614d87ef9;0x62786e589d3cd;0x3c0d0ef288f7a;0x9ffdd4f31327c;0x92505d9141e26;0xb501fc19c84];[0x1;0xc717e4c6fa940;0x4e04e032e0775;0xf42d60e81d2fb;0xb451991aaf03d;0x95684649bd6fa;0xfb6093403461d;0x7a49f92547c83;0x9298c5d453e9;0x77fcdc8d95e3a;0x20164c866a28];[0x1;0x3b2afade04a40;0x97c2bcfa693b7;0x45c8b56f529f5;0x50db921e9903;0x294832d50bcfd;0x19361a6c8018;0x697d76c5d7d2;0xd44fec03fb93;0x599b9fd304227;0x465e7159c8d];[0x0;0x607b7186a2ea0;0x155256f32ea3c;0x690bc686d246;0x10b7252308bb5;0x21e48b9c1b195;0x24dc67cdefd1a;0x1a33834f8ca3b;0x3474f93207cb8;0x92a58ebfa5620;0xb3646daf337bb]]);
 ((V [0xa6230b3c9b6cf;0x57e90525f831c;0xab237228b96a0;0xbf2d13b6a75eb;0x184b6aec1b198;0x9d04ab4288a45;0xae4e23229fda9;0x829798bc391fd;0xb91179faf5d4e;0x7482c1b67b] [0x167721485acb5;0xc799fed121436;0xcebcf89507e0e;0xe459f3b35331b;0xe4a88055b4f53;0xcdb4beeb03d04;0xafa95c4f2f9ac;0x4a63a66adba8d;0xe2ad61c92c4e3;0x7ae12f27e0]),[[0xd3c19880a71c4;0xa0e3d259a9343;0x6e86a133959f2;0xa1d7f13f585bf;0x5503fcbf66792;0xba55d38ff98f;0x1a1a6947ec242;0xd18dd4dfb80a8;0x82b6894971093;0x6da67fe543];[0xfe44c5d4ae521;0xaea45e2d3edd8;0xc3fbab6ec5c55;0x8edf57e304c89;0x6631f118965a0;0x957cda388845c;0xb16390eb83adb;0x9c2d0d815a17;0x8ec873d675cd;0x1d0be29d715];[0x1;0x1fd459815439;0x9a730548b5d3e;0xbc8685dfafa74;0xac56a6c91fa2d;0x13fb8f693c2ba;0x713fb2b8eef14;0x55374c44b53c2;0xba155b9245742;0x1a5d20dc9328e;0x37439c9d583];[0x1;0xcf1684d547108;0xa4a95e95f7eca;0x57cd58abeb849;0xaf917af0a8fc1;0xf5bf5653f2298;0xe4cba2c0f864f;0x53dface7b508a;0xcf51863cc32f1;0x3fbd261ea2599;0xa3d1f432bdc];[0x1;0x193282b0bd510;0xca5e204adcbbc;0x95be1805f5c8d;0x4a80d0e485a5;0x5f9c9fe186589;0x672369e85e1f9;0x584d40ee1c418;0xfc7801e736d8a;0x2e94073c9cf87;0x5a4f7a01b6e];[0x0;0xff609ef4038c;0x51a80454ec1c4;0xa059e4254713a;0x931e7b8466e9d;0x7d7f466a4fad0;0x7be0add1b81ca;0x7cbf81eb2ee4e;0x7811fe4a08170;0x766d591f940fa;0xce998c8c9bc3]]);
 ((V [0xaa58bf46aa38a;0xa58a0382e6e08;0x56b4d455988ea;0x4d2896403296;0xf007251afd731;0xf0daeac71403e;0xcbebd3ca1575b;0x2849017e7003c;0x2e0d47c981edd;0x4b904deb0ef] [0x3bffdb78d2c65;0x4f186ddceb45c;0x28f11d495d4e;0x7990d79e3220c;0x22a89172ef942;0xdea78b478ad8c;0x2fb388cb2ec11;0x703ced264ff4;0x2311b83dc4b58;0x6bbb160973f]),[[0x97b7059dfe6f9;0xf036c2e08b380;0x64ccab747679;0x2e751b7951eed;0xba6c70ca58bc7;0xca380b8ae3ca5;0x4228561769a1d;0x411b42c745fd3;0x24d48dd195cb6;0x4d094e4cec9];[0x5dc675df935c3;0xa7701a4e466e7;0x47ea43c296171;0x5aa1ea36fced8;0x8c59fe4c50777;0xd0650582d25c;0x77d74d7f494e7;0xf6d6690df71b5;0xf327c9243f421;0xbe50f85375];[0x1;0x71c44b3c4f6d1;0xcca9e1cc92efa;0x90a3e872e745a;0x7311ed7a7ed37;0x5485ae6a182bd;0x6f71dad8909ac;0x79d95f8c1bf0b;0xd673a33fbe0d8;0xe50e8498ab0a9;0x17601185c15];[0x1;0xc2e32681c597a;0xa3e20a0dabea5;0xfc4b640ed441c;0x43b079bd7f4de;0x4a0d5fb4421a0;0xd6a0371b4ac4e;0x97a8c1fb7557b;0xdbf46a7d67abd;0x6eb8d40e64ae6;0x3e1fd073804];[0x1;0x6152b1f7e64a1;0x92e2ec734eba9;0xea8b49c53a2a1;0xabcebb5f8664d;0x3b79408029bdd;0x3606798a4ff5c;0x7d36adb1e19d4;0x67ae7ec1c8b42;0xccdebfe835fa5;0x85e41961fd7];[0x0;0x45e13b05a932c;0xde69974a5c23f;0x5834f7cce6445;0x7b532db327542;0x2753a7688bbc4;0xb9fb92ef921f8;0x6c36c8f82addf;0xb64d7046bfc7d;0x9783be955f5c6;0x994fbb3affe45]]);
 ((V [0xafcb00bab68c7;0x22a33a3867515;0xec93dc34a5599;0x2ecc82f760a7f;0x6e06f2d88f709;0xd6829d108cd4e;0x471bff808c3f4;0xed74751f5eb;0xa7a26d892927;0x4c88afc238] [0xbcdcbf6381ac0;0x6017097a4064b;0x97b303e15a295;0x2d8598556a074;0xa84be3ba149dc;0x2c82c6b4ce23b;0x26900871390fb;0xa1595ca252e6d;0x2074295020f5f;0x15b3fc89389]),[[0x2110cfddc78c8;0x5df4cc1f64623;0x66a6f90e1e810;0xbe7458ee46c4d;0x7db454000ba04;0x6f0112c01e71a;0xd77fcb5589e96;0xdb292b0f927bb;0xb45cfd9b243a;0x671a9c6e642];[0x10208c41aa2b;0xbc15c109d47ae;0x2ba23d4dc6e25;0x82cd91c6c430c;0x4afc2d8e82256;0xb06681813d2;0x9ef9cb895b0ab;0x322b9e71a4318;0xa839ee54e7972;0x6401f475014];[0x1;0x22bd0e10b624;0xb36358861a07d;0x40e9c1ed09811;0x98ec762eed58a;0xea48723e692af;0x587ed692ba525;0x5cf0dd4e687fa;0x1a3227914c80f;0x47a5ce723849;0x9b682aeb0cc];[0x1;0x1baf39ca1e8d0;0x622cd2ed16b71;0x3123ca1af808d;0x6f49f05aac74a;0xebb00303666ec;0x2c0a1c49591a7;0xe71a88ff994e9;0xdd898f5e27dfe;0xde9db04c7e282;0x1aa7dd7f4057];[0x1;0x64fca224cb840;0x3fa38f68f6445;0xd482894b0a301;0x4e99f75cf77eb;0xa1991d5029a25;0xba4ad9ceb352;0xbbdaceefd7dc;0xae82e67f79c27;0x20fc3c15a4c42;0xe4c5745a8da];[0x0;0xbe091d65e39f0;0x2238f62d1bd75;0x96238039f6755;0x162f00ba48cb;0x7a07ca3eab342;0x2e5269363a1c;0x2b19dbb3a1927;0xcdc9ade831927;0xb95132deaf7ed;0xcdd278ca01a71]]);
 ((V [0xe35919110db32;0xb28f11b921721;0xc26e86d5d7965;0x928bf461efd5b;0x87cef6a1c0753;0xe03cad55e92af;0xee0287a77d8ed;0x8245e4fd46e83;0x1669afd816fed;0x1e08c5a346a] [0x9e0dba8c4d5ed;0x409d2d1cdf2bd;0x3c2a2136ed102;0xf31a685d4d188;0xaeee682d98b11;0x58d4e76d57769;0x3da29a38dc666;0xa2cc498ec9eb6;0x6c4c5a7f66231;0x76c74bd460]),[[0x4dd88ca7f73ff;0x506f875383c14;0xa44b698a35df7;0x93a6ac8941db1;0x78a151f44e712;0x87f9fce5e3e43;0x2fba0a16f4697;0xe0c0787c5443a;0xb2a86a0aae0bf;0x56f619fad9b];[0x9a917ae38f707;0xe4901da7490f4;0xa2763f4036914;0x83c6523b88ede;0x3e35cad834cc6;0xde3ded0fd78f6;0x9ac464ae3d956;0x91c1f41bc467;0x39e681b0557bb;0x698cc3a53ea];[0x1;0x9fb521b1c4921;0xeda0b2acb634c;0xa5ba62ccbb81a;0xe6024c2f5788;0xf84ef31f116f;0x79a1a459c130;0x27e547e3caf44;0x72ba4d963ac1;0x6a310f5b8a787;0xd2ebc467d03];[0x1;0x775a513b0e280;0xc5af60e445d0;0x6b856ce30ec61;0x57e4c96598ca4;0xd57b82adfb9b4;0x32529f37abab1;0xd98d5ae780ad6;0xa2c54d695d1d2;0x23cb252e70a25;0x25bcf45e504d];[0x1;0x39e0fc0a3971;0xca60bc6721e47;0xa0f58f191bdd8;0x5d19ac15957bc;0xecb4870e68ec3;0xfd98d72d90e8c;0x3d670b3827795;0x2d2c786b23a37;0x71a8641aff320;0x141f2b22253];[0x0;0x92ee4165861c4;0x72a22435acdc4;0x4fd87993327fb;0x45b7d8da3e174;0xbc27c3679522a;0xd3f118760415b;0x4ffaa0685d4d9;0xcb647239995dc;0x21983c8e16004;0xadf7c17928463]]);
 ((V [0x5642099142b61;0xc54dde47cbbce;0xe401a0408c3f5;0x89eeffe5ffe28;0x53e53be4b2ab7;0x46daded34d078;0xe6761640c920a;0x8e9c14d85f4b4;0x19856743b7ffa;0x2a8811f0bdb] [0xafc250212fdbd;0x28e8932ab6129;0xdc87788fd73e1;0xf0726d647b685;0xc4e2e8e0b9a0c;0xa1f7755eb6c72;0x1814a90bb996;0x8c8c45e909c1f;0x7936f53f43d90;0xddf062773b]),[[0xce3f1d19b746a;0x5a6352880eb7a;0xac73c8cd98fca;0x6d1a239613583;0x788a6de818235;0xe1095b053bff2;0x2337f0e59185e;0x5be6efddeb5be;0x95dc90e3957b1;0x2afc5f7bdcd];[0x5ea366378a50a;0xc0d563a486048;0xd37188f38f9eb;0x1d2c917437e9;0x86e85b9892a77;0xc2353abcd74c9;0x43d54d89b2f62;0x83d943c8a42ad;0xb998531fd5994;0x117cc447ebc];[0x1;0xa06aa88985f84;0x8eb63fd7e6dc2;0x8ec321774428b;0xb3adb9ae0e26e;0x422c6beb5e1d3;0x79e15a0a9ce9a;0x3e16e3b0728fb;0xad5649db68aee;0x951160fe69bb5;0x1bed6b5168e];[0x1;0x68a155e29d204;0xdc542aba07a41;0x481e2843d0caf;0xbb6ddd42c46d8;0x23268d39a3c91;0x22ba7820ee77d;0x4c2d1b55a5c1c;0x959b77ee878ae;0x615baabf8bddd;0x63f026f44c3];[0x1;0x5b9f6a328d3a4;0xd1f35e24df8cb;0x7e458715ef5f1;0xbb00b4a9d4740;0xbde4b8f385fd7;0x81dc906dca940;0xf36b8b701164d;0x9ff5c94b4fb2e;0xa39fd0f7bc94d;0xbec3aa2d0e0];[0x0;0xcf875bd02c180;0x640b62bf1d7d8;0xa60c5aa1271df;0x3ed30bdbf1abc;0xdb01d915d3097;0xd1d97595913df;0xaff9d22ac3a76;0x30d27eedf52ed;0xfb25d0fe27461;0x55f4f1f871e5f]]);
 ((V [0x1677c15d0703c;0x5bc294d241308;0xae5072dd6d59d;0xbf5b53f81d385;0x3b1eaf2e7d9eb;0x2193f6fcf4273;0xd47867c81961d;0x846a26d3b491b;0xfd6c5f85c3d33;0x779ce2f0fa0] [0x3fed61724446;0xbbb26680958ad;0xd4c1a05a96fd8;0x9cac8eeb9e671;0xb530ee8c42050;0x613071bd8f640;0x7d25283da7fc6;0x913f1193e4d54;0x3709f7d564465;0x75e460e6aac]),[[0x51fad3a4127ee;0xdd2498373bef3;0x1c477e136abb5;0xa730ec369d4a5;0xb217a413e2866;0xadd379c5b0302;0xeafc9c2a6a258;0x34bc4102039fd;0x4ef5f794888f6;0x6ac6186e7cb];[0x426508a3442b9;0x7cfb61d56a7c0;0x19a4e65934a7a;0x1a185180d0448;0x5babd7e8bed43;0x86efb3b422f19;0x38cec693ac4e1;0xd9b4253fc40ff;0x675d0d399efb7;0x63cad766317];[0x1;0xd19f77d1cd031;0xa4b48d9b8048b;0xda611d060e87f;0x5aeaf7d51cbba;0x49899c4dc7aa4;0x65bc5ff5ea06b;0x2b079850f2394;0x509d9ebd376a0;0x98f1993a42da8;0xb973d260445];[0x1;0x6ce747300ecac;0xebca62075d881;0x1a11b2d159f1;0x73bf26033eb1;0xc2656896db54c;0x65a216a19a139;0x4260fbe4fdea8;0xdf9b0693f1d49;0x804816bd93d04;0x23f9cbaed326];[0x1;0x2f1b56524b304;0x1120ca6a68c9d;0x532cf0ef068aa;0x930119e654590;0x795f55aa0ff2f;0x62ec64e476fcb;0x212241db78726;0x23097e83a1752;0xec488672855f2;0x14048c29a51d];[0x0;0xd3d29e8f881e8;0xd68e7e0408433;0x121b02d1112d4;0xf8c14081af8ef;0x592597bc9e9fa;0x870113e9a741;0xdf08436eb5967;0x1c0089498fe10;0x5714d6d9c45d5;0xd4af239f4dbb1]]);
 ((V [0x7fddfa9b9157;0xa7747f5b4b2a0;0x97f4b2c5c34ae;0xf6ca77caf29b;0xfa7f31fcd691d;0xb541fa5aff19a;0x940eec2b80d5a;0xd3a7fac93aba4;0x3fa0d442b2b1d;0x11cbfe3d0c] [0xfc6a84e7f58df;0x8444c66bad4b9;0x8cac536294e9c;0xfca08618569a2;0xb1404e6c724a3;0x59dd6053bd560;0xf89dbd17a1009;0x43d7f6e24032f;0xc614ac5794ed1;0x5a2a8107a97]),[[0xfd7b3cae6b884;0xcadb3fa4c9744;0xdc5106babad96;0x315ce26f8ff52;0x5c9bedb9f200;0xe60fbf6dcfcf4;0xf0a44b6c57ec0;0x5f3e5679e6a1c;0xe354d51c6c7c8;0x595b5354d30];[0xae8f56d252f2a;0x65208f6635b79;0xa038f4d496989;0x51c4378ad0b76;0xf9f7a0891a0c5;0x783611d7d11c4;0x38874de194f80;0x832d99a2ee48;0x5f55963fd3e8a;0x1610b1fd708];[0x0;0x9cf4376953af0;0xb36731695176b;0xc65fc9665576f;0xa549fd9bba73e;0xc42d142368cae;0xd907bc1e03b39;0xd278d8d5fe441;0xa5389d7b0f34;0x7c7f466b4c1e1;0x43a51247eda];[0x0;0xe7bb5d1a332d0;0x49d1174cf1b5a;0xe5da5550a94df;0xff3fd39098e69;0x18c232e8a2cf5;0x44544c1347a94;0x6d4e637dfcd94;0x5fd38d955afc2;0x463c66cde09b;0x2035a50a588];[0x1;0xb210c2d3ddb10;0x46ee5263e8fcb;0xccf32fd79af55;0x6ee43598513d7;0xbbed6c636f022;0xf1967f1462cd1;0xe4ed685d196ae;0x3ae8ece971078;0xb3af24e5781bb;0x1a24bca80e16];[0x0;0xfc9c66cfdb0;0xf352b7beac971;0x2d2764271ef71;0x665e6fc05a78c;0x8e39b0890b0db;0xc25bb7831ffd9;0x154e5ea2ba932;0x55a19db44bbce;0x13212280b421f;0xb1c29dddbbf74]]);
 ((V [0x2f2601e04b373;0xb916a222733e0;0x476a31d43bf11;0xb7a38ab509201;0x13fdfca310510;0x306488d17cb7e;0x50b02833ad42d;0xc6cdb87f7bb60;0xaa676603e1773;0x28e4739aeb1] [0x731e1701a0343;0x1f45861246fb2;0xbe0b9b14700b2;0x92a808ac4e2e8;0x2d18d0ada4f64;0x9dcee3614f99f;0xa4aa6dc4d3bd9;0xd530475f40f1d;0x12f6f0bb64b0a;0xb48e339dd5]),[[0xe8fe1127015ba;0x17719ed1f98cc;0x67438f8b3fa5b;0x49e54007fa789;0xa8ab01c8424d3;0xb25ae75237d69;0x23df735183145;0x63c8b40b73df5;0x9ef1434ed4c53;0x1860ee42761];[0x3ae856baeaca6;0xd43eda540efb3;0xd4648fc5c1072;0x3377737ae7e91;0x612e7c9b755cc;0xf6062207c218d;0x74a9e25829776;0x78d2ae8466455;0x80b749c5ff17a;0x39601b58224];[0x1;0x8a2a94004ec01;0xbda957df9661e;0xf0963a7ffe5de;0x91da01ff289f9;0xca3ccd16846e5;0xbd23ab95c564c;0x2dbef9dcdd5f4;0x190c5edafb160;0x638c2f408cc2e;0x72bdbd3ba1f];[0x1;0x6f88bd64cab4c;0xfb3629c5723a2;0x2eb4f5c2eb8d4;0x177a28d7f938e;0x8e67c6b3054a0;0x16353ca743768;0xb55c0208cf5d0;0x10e5cc0b848c4;0x6f02ca4ca40d6;0x135e82440b09];[0x1;0x41bcf60768ee4;0x8cd44d928defc;0x59dc966e1402e;0x3318592e2a87f;0x273a1e923ed64;0x1b52054a9962d;0xf9479b38073ff;0xad25f03de7908;0xb0ae0f636f315;0x519744050dc];[0x0;0x127a4047edc92;0x33b7349f89dec;0xb6dd0f9574e76;0x4731d3d37ba54;0xba967fcccc533;0xf8e1b028eb9bb;0x3a3f2063b42b3;0x951101d9c901f;0x3ac579c87ea55;0x3007c31926844]]);
 ((V [0xf3c1f56231628;0x230f17ce25393;0x2147808ca9032;0x4214047ce7d16;0x247971cbee4da;0xfc2f355dcf094;0xeeab2815a2419;0x6d42d2c56984e;0x4eda9f28b5169;0x3c753d04d41] [0x3819cb5890bab;0xa3200ba6dabbe;0x87b76c77667a7;0x8d45baa982893;0x5532f9f262fef;0x4cb1902033285;0x40985e3364716;0x69bb058a4e8ec;0xeaed8929a3b06;0x33eee63198]),[[0x625b6f1644b4a;0xeea0a40059be;0x446db00eb639e;0x87d1ce7642da;0xae54b75534b02;0xa4719540c2084;0x9368b99b6aaff;0x40229a0cf5fe9;0x14ed19fdfad1c;0x4a657dfde73];[0x1daf75692e7b2;0x413c827d8aa29;0x7dce03f7f302f;0x983ec0b493323;0xd4fd083a75576;0x774711ba5ed33;0xd1b688f3b4b2f;0xade56483c6447;0x6d566f7467df6;0x1aeb66f3b25];[0x1;0xd6e7267a9c899;0x2ea9e21f69baf;0xe03d84165eb0b;0xe2a3614b473eb;0xe1f6442508b37;0x27d42a96501b0;0xa21a2bcf2b755;0x2992f29525d48;0xe59dfa19e2d83;0x28c66dea516];[0x1;0xf15ee232d72fc;0x1f1e4fc6c40ef;0x42ba3fce3ca06;0x501060a6f5f4b;0xfaf6966aacb02;0x708ae441185fb;0xd7481f2ad6995;0x797d747029c9b;0xed2987705be6a;0x94663dbd8e1];[0x1;0x8e5a3220df124;0xe8f8f00112efd;0x92dcf4eef5b11;0x252a026082201;0xf8efa92615e9c;0x150b616c506f8;0x97e3f6b68945b;0x16993fa5911c1;0xeb908c3f30714;0xf13e9e4e708];[0x0;0xdba58b77fb47c;0x1f83af371b8b8;0x73fda23517b8a;0x90054008c4300;0x12a4abb829802;0x8bd1dd3ec27f;0x1d20f898f227a;0xf8c1dfb1dfdd7;0x6510ab8855a1d;0x94ecf29e9fff9]]);
 ((V [0x9339ee15e862f;0x7645242b70942;0x2dcaa03e9d188;0x16d90681142ad;0xfbb8f48d61b2a;0x33df23590522;0xa20163415ff87;0x88b6324154c30;0xbc48fcfc90cd0;0x48eaa3a00ef] [0x5b61c65a62274;0xfe81179f03698;0xbb9d3ae2272ef;0x430918171a02b;0x293633e467466;0x13f466882fab3;0x5825761a22c6d;0xd251aba4537c0;0x17f5a421a2f42;0x72c6dbd211b]),[[0x20f36044e409f;0xc10fde7bcf71a;0xd750c35b0414f;0x4bf4f53cb7f15;0x3361cbac1aa0e;0xc9e686237bd55;0x1a92deea06e5e;0xf12790b57c6ef;0xe8c6defed6a84;0x15edbd03a0d];[0x9bcc6952739de;0x305ae55a79600;0xdae8508fe7bf8;0x5d1efe1d275d1;0x55413d6d26653;0x50946feaab670;0xac9b21f3b989d;0xda4df5e7519f2;0xeecdbe43617d0;0x6353269d2];[0x0;0x5063f27121dc0;0x24b55bfedae4a;0x29051cb3316a2;0x7bf75e96ac564;0xfe730250a14f7;0x8a7e9f4131c80;0xbe022466ed147;0xdaad8bb51d78c;0x15ac98dfffdc;0x1bc7ae48f66];[0x1;0x479b77921f6ca;0x80409308bd162;0x1dd488d18a9d0;0xce347a0968369;0xc681f44f1ed48;0x49f8a4009b3bc;0x1fe9fb4c1ed9c;0xb359410269abf;0x3a5e85bac1be6;0x1373e0e5ca];[0x1;0x1aaceee87831;0xa02e902ff8ccf;0x2175cbb8d8834;0x7588d7f762a94;0x9529217785eec;0x91c40d94bacf1;0xab4e3f44e002d;0xc61d721b2a63e;0x5ca67c497dd71;0x17fe87fbf34f];[0x0;0xdb9854a24b2e8;0x97ca723aab54;0x1aab82fac435e;0x85e28963e1f85;0x68837051fb4eb;0x4be956fc92693;0x4ecc93a6e8c81;0xdedc9376db59d;0x81715305139cb;0x2b0339c93fe07]]);
 ((V [0xb091de840fc84;0x3494e94c2265e;0x6ca355cb0ea0d;0x2fd015d9b2453;0x808c88a8229ca;0xbd490fcfbc1bd;0x905f4281878c6;0xbdbe7875b26b6;0x89408c737a707;0x42e1615629b] [0x87bc360811ac7;0x1f15a005bc5d;0x8222a729b8ea1;0x797671e3cb66f;0x7fb7b9904b981;0x575d46d42400d;0x4ed341361cb90;0xad8776d3753d9;0xdfe5aa5e095f6;0x15ed109287e]),[[0xfc70edfe94e64;0x22c13efab60f6;0xf172c60bcd078;0x201838ce2ea8f;0xef9612062926;0x30bc8896cf0d0;0xe222cccb6a2c7;0xad46ade72463c;0xfdf653d637a5a;0x4714eb4708d];[0x10d0091d67265;0xca7ee2e9180dc;0xb6fb1e89f36c4;0x740df6db51c8b;0x16ff06c2bf5ac;0xdea7c7e3d14f9;0x9e346e00e13e4;0x9586159ca8622;0xe7cd30d3d1fc7;0x996bbc0d05];[0x0;0x84d9c5654fbef;0xb492020c63100;0xfa9c1843008af;0x841b0fc29f6c7;0x7778335509f95;0x11ed15b981088;0x356c4153c9de3;0x53c7be34ea75d;0xf7a510ce254e3;0x165c2eb1827];[0x0;0xba41e925c1f60;0x213043c9faf88;0xbb2ec501f8f3b;0x8677b049bcf19;0x1c5fa7ec67934;0x9bf362f0ed293;0xe8be9ad9365b1;0x3d81173c61708;0xd12d3a6aa4ce4;0x45f1b96e6eb];[0x1;0x64b395e43e10;0x795cc831c71a2;0xf26a93be0b095;0x2e4668440bf72;0x43b9491788b2;0xd70d009194f96;0xbd65f55a93849;0xd7d31232ebf47;0xe1c84cc94e14a;0x181f418be8ad];[0x0;0x18cbf913c9058;0x4d05f22e49203;0xcb1bfbc17486c;0xf6b1a10e814f8;0x6b0667a935f5c;0x158eb7a876dd6;0xa10a12bcd8288;0xbc0a3a9a57ceb;0x85896395b3b67;0x8d62ddbfdf475]]);
 ((V [0xe6a04ec8ee855;0x4c69b10f05144;0x5cdf4478b3113;0x22a28aed9005c;0x9d11c1546e8a8;0xf2042a6fc2cd7;0xea9d5575c1aac;0xb986f42ce7ae2;0xa5c1ccb607660;0x704b03f2099] [0x126daa3bc04c;0xe35328ad5486a;0xb31bb7b9857dc;0x14ceee392f526;0x91788cc21be76;0xbe882ff01c9ea;0xec49956151583;0x55108f3a062dd;0x7f48b5c5e7ebc;0x3af458a4c11]),[[0x34c11dbea26b2;0xcf3fe006d4e66;0xf30742af67cb7;0xda2bb1ac28739;0x21dffdea48e2;0x10861ba3623ef;0x30bedbacf0726;0xa8f09d8e14358;0x4ea79614a1885;0x73f574cf8f0];[0x437cbfffb929d;0xe0fc07bf19916;0x6094e1e8afeb5;0x9a6465f0a6905;0x74c18f436bf9b;0x98b1a023881f;0xa7706e9805294;0x250ae17e2eab7;0xb8407613e18bc;0x6665b8ce089];[0x1;0x61f7ea4f1fb10;0xcb9ac1ccb08d3;0x302cd3db008b;0x42b885fb60baa;0xb1ed9441839cb;0x61891fc1a2140;0xa5bc7f2a32eed;0x273162dbddf73;0x131416830ead5;0xa9d97862b94];[0x1;0x6d62cb899defc;0xa3ac3cd2e0740;0x1923b4fd50e15;0x268ec82b8e8e7;0xe3f4d489cadf7;0x4c6475cf9d118;0x9897e847dca00;0x6f80f2dff03cf;0xa8793e49b0482;0x23ea84384aca];[0x1;0x51b06e39c3d84;0xad86cdf27502e;0x1f1f60014e3ab;0x5cf846124d9e2;0x5290e5ff375c1;0x69050268b5229;0xb689f9306e930;0xdc37413a4f7fa;0x1306ee3769825;0x1830ea8a62ff];[0x0;0xcd307b75bede4;0x4724fc30c21ee;0x3bed8920f63f1;0x1af1378346849;0x3c685ac22412b;0x488b5878cd070;0x74a82c155312c;0x9e1b7bb59511f;0xe9a64ebda65b0;0xe793f843c45e5]]);
 ((V [0xe9c4ac6a9860c;0xd4bfabaab07d2;0x189fcc0087c80;0x98487317415d;0xe12bfee3de942;0x46cfb0de0480;0xa9144606d5c19;0xe80056c7ba6fb;0x59029a91a92d9;0x69bf589f199] [0xba406bda3211c;0x52e5c8319ed5;0xc4c917ab892bb;0xfe191ff9fae4c;0x125df6d3a9679;0xee5bb2eaaf4ee;0x1fe0d74f4d04a;0xb94e24102f948;0x9a56bb41d2d20;0x76876610e43]),[[0x10b244ea62054;0x84dd3e206b989;0xdf0305e312d50;0x825e24934e419;0x18910a50f72a1;0xc2195dd91b04c;0x273c711f465a1;0x5852e65c26a95;0xb285b42070424;0x40b4b7b2439];[0x86d1a5993c739;0xe2107e8f22a0e;0x79c57d7338709;0x9b4108a9e2d87;0xe84f2a879ade0;0x3890f7ad9901e;0x48e48de556a7b;0xd92c78df4f0ae;0x7a4463cd6dc31;0x15d048083d];[0x0;0x7822ff520a1d7;0xdb7b761f5b900;0x62dee4e94dd06;0x955e385075ab9;0x1ad6f7c524168;0xd27dfd98d47ed;0x9955928f35d37;0xca2525bd50106;0x13ba968af8153;0x5fc969dd28e];[0x0;0xcc4be6f831c20;0x9de77917734c8;0xc5c83030dc01e;0x31946a5368fa7;0x1425e1f8df703;0x3b1e90fc336c8;0x332db9cd48a96;0xcf83bbb71eba2;0xd8a5f31f7edf8;0x336cb611dcb];[0x1;0xdf6daccf6ba90;0x4909e76fc704e;0xa63ed635aa776;0xd6c36c2a965f8;0xed4a52f7c5880;0x72a58cfb75960;0x8cece0a96f7e0;0xb1593173dd656;0xa9275ea63ee67;0x273f50a2e68f];[0x0;0xbc099ddf8f9a0;0x91bb0c561cd85;0x56c42d8f8b7f9;0x13e84a9f600c7;0x370dea99c783a;0x1d3ca35d5b876;0x4b9e3ef8b7232;0x8f2b05b3bbae2;0xc750560ab92fa;0x804a7bb245608]]);
 ((V [0xe3270f4da694b;0x94da0895bb8c0;0x32e785695cf0d;0xb7240d591ab42;0xb03f1c317092f;0x2a660622d5139;0x77349e4203483;0x87f4ed59bd86f;0xe2bbb497c9af7;0x3a37b5ba50d] [0xf02d037a8cdf0;0x646416a7808a9;0xa27b6c1d19d5d;0xd74c7c949fc81;0xf1ad1a2e28cfb;0x7a3352540d852;0x6ea354c0164a0;0xc6efe473e8a17;0x849d1df2ba56b;0x30ded0b0e3]),[[0xa323ff28fc090;0xe59dae947cce9;0x1cde963a6d033;0x198ca3a5de295;0x6d24b8214a5dc;0x7fb4c5a796073;0x580cd1515c9bf;0x87df6db6114a4;0xc7b0e2268c610;0x2aaa9393b95];[0xfadb3907334b0;0xd7abab9261a75;0x30cf22879763d;0xc8e03c7195011;0x5b0ab124dfdbb;0xe7eae64cfe69b;0x99afa6ea3d31;0xd15172f3bfaca;0xb82bcb4a1fc52;0x7a664ab6080];[0x1;0x9d9463a125f90;0xdf5c94dc72a62;0xf7ac88dc478b5;0x77414596a3c6;0x1b0eda3332764;0xa67d553e7141f;0x38a488ff46ed4;0xae57a4e1fc768;0x1c1ab98972952;0x9d6f89fc51f];[0x1;0x2a117d6928780;0x43e6da626f3d4;0xaec282e1ab928;0x1b059203137f3;0x741e95358b612;0x3e2596c85685f;0xb0a9329cbd004;0xacc5497b8daac;0x91e2b99a78954;0x28f60fc5168e];[0x1;0x76094634cc100;0x3d60e018bf3c4;0xe2e58a8fc034e;0xdb4d0661a673e;0x682a003734f99;0x5053962d738a;0xe553d63cc1426;0xd52d4774cb4fb;0x39177dbc6a707;0x20d33f9c76be];[0x0;0x8123a6712e500;0x9de4f238c60c;0x6da23eab38845;0x71e76ad296caa;0x7845666904042;0x7ceffdf618be;0xe41b0de0275ea;0xf730e83779493;0x1ab3bdbfc199e;0x549c7eed3296d]]);
 ((V [0xfba6483ca5275;0x3ac605d6b449f;0xd353a501e23c2;0xc2e71a58ae2cb;0xf6da763291886;0xa8d1e57c598d2;0xea309b738ddce;0x2d6eaa0730420;0x8187a0c60044;0x4555bfdbf46] [0x59c3ce79163a7;0xbbefd5c2832fe;0x5957222211689;0x38ffcd299826f;0x973dfa84ae04e;0x172dcc92d9db7;0xbb3dbd844abbd;0x65843213976aa;0xe00f4ed41be43;0x55506ecb450]),[[0x9b9e5507fbca2;0xfe6f11d6524c1;0xb655e5325a72a;0xe1e25dbf8ea57;0xf9bb5b69f692c;0xa77225200e098;0x784c5582c9030;0x83f5cd7253c23;0x34153e5fdadcb;0x2303f66e6d8];[0xb491f79d3e042;0xedcd8c250b449;0x63bee09c62845;0x50ebe20c9c762;0x121e7d5ca45c3;0x1452e2ee7614d;0x514f0b7ee0a64;0x438cd3dd4d81f;0x16d27287676d5;0x5211677d417];[0x1;0xc15e75d7c71e9;0x4392bc19191de;0xad5638173ab69;0x83d37562add5e;0xe59bc2eebae8e;0x5bdbc5ec04497;0xa2b9dbc34afd6;0x3250dce9f019a;0xa07d774ecddb9;0x89a83a0a7b7];[0x1;0xb76f720f887c0;0x196cc79f3a324;0x245f43b394a83;0x39e34a59bd423;0xb49062de19192;0x862030782882c;0x11676cbf0e0fa;0x6d263ab9a8282;0x136e9bdc554b9;0x1eabc9ee3941];[0x1;0xbd72d10413444;0x5d9953d26154;0x60486f914c8e5;0x114da8d7c99bf;0x4a7a1bbf14083;0xf3e5c75ca8f03;0xd8f5ce062ca36;0xec2d38bfb33cc;0x7f3e65b641361;0x169f62bbd60b];[0x0;0x5220ad02079f6;0x2ce9931e73ca4;0xce9944bc4be12;0x34ebfee2a32df;0x28a94d2a27abd;0xfd551d18bd85e;0x42d563f91e8f7;0x2c7fc55584565;0xd84dbd6ac2ac9;0x4577298cbc0b2]]);
 ((V [0xe8fc8b46a1b97;0x77a128b69be2d;0x76de39e23587;0xa4ed375c9350;0x237868fa646de;0x5c3b0f7ec8e8d;0xc929b46ecd28d;0xeaf69d2503bca;0xba8579fc7c9b9;0x631a5871c47] [0xfdea8f4388ba1;0x5a67ef75c87ab;0xd2b8cda402b5;0x1c4a989aa50ea;0x452d9ba60d73d;0xf442d11916776;0xb61df6b12d3d6;0x6b9c105d2e813;0xd642da7c241;0x1f1c1755cba]),[[0x42eee316fe7f5;0xb4ddbb17ebd16;0x2793c1e85e126;0x40d6c9f14c590;0xf24b11ae46e1e;0xde531d628411e;0xdb701b7b3136d;0x4b55693ae5100;0xd693969d0cecf;0x4ab518879d];[0x6a46a4f44a9b5;0x77029d0931e0d;0x79771a1d6e6b6;0xce0ea33208bcc;0xecca38dc2cc58;0xe735cb0361093;0x920311d682156;0xbb841168591e8;0x489ccad92ef35;0xd2a7f5689b];[0x0;0xa885b8c9f9897;0xcf5e814b74afc;0x7ca02c1e185ea;0x132f69488b7ed;0x3261898da0ea7;0x4a7d9e34e7899;0xe71b5eb025ad7;0x564bde23f10db;0x36f80f5ad5757;0xb39ad9dffc];[0x1;0xec9400deb5e46;0x335555a80064f;0xe4f9f0056a95d;0x1ed74c126c6f3;0x385fcafb7b7e6;0xdce96a1563cf3;0x64809ac2cbb14;0xceb0e68b40b6a;0x5ee7e5a4c279a;0x48c59582c53];[0x1;0x5975ba69b5e69;0x3f5913a9119bd;0x52c7777dd7a8a;0x18f51a564931b;0xab4fb6fb31e18;0x1270abada1824;0x6dabc44b9fd6f;0xa6cef8608b2a9;0x698e562f16fd3;0x1db6015eec64];[0x0;0xd5b2049e7d3df;0x1751326135313;0xe340a0b6e59e2;0x2ca1ddc36f8d0;0x4b4da3f2ef164;0x43b72a6d190e6;0x1cb44c76e67ce;0x680418f62d932;0x69eda7fa62f95;0x8715f59db66e]])]
 [[0xb2532b046955;0x1fa266bbe31b7;0xbe541d4071494;0x914e3e2e9bbb6;0x19961f73a9ba7;0x771de297d5a8;0xf2fddfb9d2198;0xe1636d69ffbd8;0x7ecf3f99cd4b;0xdf111123ef];[0xc95fd27f802ce;0xa562393867e79;0xd2ecfac26e099;0xcb30d9c54d961;0x80cabef952c0f;0xee975382969e;0x5ea7eab2a3b01;0x94d82949a7861;0xef9331d3282c2;0x62906ba2fe9];[0x1;0xce87f80af3b81;0xead8e5ed13974;0x496442c938f2b;0x1970bcfe24350;0xb96471d4dbb8d;0x309fa8905ad88;0xc039119408572;0xd7266cec545c;0xa047a2c3a2ee4;0x78661109d5f];[0x1;0x86b35f470bb4a;0x4be8acbb6298c;0x701f1bba9e850;0xb92c41857d6c6;0x7e482fce091ab;0xa042e60002db4;0xa092321062fab;0x3b602f4ce058f;0x915f975653f9d;0x2489ba300569];[0x1;0xa837d836c6829;0x59ff48a307b38;0x5a9fb5e28cf26;0x6d12f50eab2e8;0xd14c34c1a47de;0xf86fde69359c6;0xc5c009f870a43;0x9e408d0f99a3d;0xe24eeda3aaeb0;0x1b66d634faf2];[0x0;0x12314bf24ad67;0x6294e180f2e97;0xc353b558e84ca;0x8ad5827a51c32;0x8707f5ee3b84d;0xc64eb3d3f0e94;0x180887d7283ed;0xb462582a3a05d;0x9b591e1ab02b0;0x1ae341e352b8f]].
Definition wit_512B_64_10 : colwit ipt wit := mk_colwit (V [0x962ea2c61cdd5;0x738f3eecd25f9;0x2b3cc81b9596a;0xabcf68850e61e;0x8e7424bcee268;0xe366b6ec8cba4;0x50ddc153d1423;0xb6eec39b84db7;0x6f1bfd1f670a4;0x77242f0f7fd] [0x9dd9f907850d9;0xa2b9679cbb80c;0x3b37f7c5546a;0xd980d2eca755d;0xa37c83eca9f99;0xbd83c58e45883;0xfd5805b5817e7;0xb0494e60c9236;0xb9da1ed909271;0x70228f28713])
 [[0xae97635479a9f;0xd00ac4034e1a8;0x106dffb18496d;0x936733f31ab77;0x617b5913fa2a2;0x84b055cf4807e;0xeb5cc08133b0;0x7cec3f222ee71;0x3cf2392b532d2;0x14c9707e99a];[0x81dda4e4ad8df;0x2284188680db;0x6bb12a18af809;0x3fe0a69014734;0xaf0b9356600b3;0x7a23c59620265;0x48b80bec33385;0x39102c6696bd;0x8676d08144180;0x40bdfce4883];[0x1;0x52aba38cfbb71;0xfe7cff605841b;0xd512b81a5c8ad;0x84df3dd98da1b;0xf5a423e3822b9;0xcd82d8109fc78;0x2165d15233c3;0x4880988f87504;0xb3ba8839b58ec;0x7dc85d2ddf6];[0x1;0x4225150d4b3f8;0x2a0092e86849d;0xe6a95dc631639;0x4c3e65078e55b;0x97098ac305207;0x9ead9258d5cd0;0x58ac309129541;0x927919abc01f5;0x7e316e3f82bd5;0x16188aced516];[0x1;0x7d4e0915f8431;0x42783795295d6;0x230a99033660f;0x46094c518896b;0x5ec6841f42283;0xc5a316b7d2568;0x8bdec68d3dfce;0x23d2869ae3a6b;0xa96bb766279cc;0x141f9abf8f93];[0x0;0xcebd6812bb8b;0xa220faf2a422d;0x17da9bf57e7e3;0x78cf475292a3c;0x983212ad49cd5;0xc49f341c28b2e;0x5e6c1166ec4c3;0x83543411e7748;0x29af4a4067798;0x27e08f93e1536]]
 [[[0x8c4620ff8f40b;0xc7f5f926aabd3;0xa9ed97561ce06;0xf21344a89919;0xdbeb7cdda3dc0;0xba8265308b144;0xb9d4b25056c40;0x506fe67498cba;0xc61f6b346a03e;0x6464707feda];[0x1;0xe18903eb7751;0x3cf3879dce2b3;0x877ee9cc32208;0xb682efc061dfb;0x7b355937718f0;0x548d1d2de821d;0xe49154143313c;0xf02ff3124f148;0xf8ee1f3776427;0x378f9ae655d54;0x1];[0x1;0x3f04bd41bc669;0x305286a0cfd0d;0x2dc7397b18595;0xd80adef3ad9ca;0xae7552422b41d;0xb289051e0a79b;0xae7c1822402bd;0xa4873b43cc837;0xfc8a0f9042f0e;0x10089a039b88];[0x0;0x8b7923f866cc6;0xeafce9293ef25;0x755ffe96f8e3c;0x94cb5755a3a07;0xa1845d94f3be;0x21701f5a2d3b0;0x87dfbf3ff809f;0xda78042cd0a48;0xef84693dc98ea;0xc83f59ac31e4a]];
 [[0x37f3ff9afb67c;0xffad67b6c9be4;0x1189e5890b77;0x8179dc63a4492;0x194bc0f5e7afc;0xf8d682a1041b6;0x512519be8560;0x6c5ffd66514b9;0x828dea2a4f46b;0x16f75cdb65a];[0x1;0xaf7e83d73d6f8;0xf96b01d98a94d;0xb1b83bfb08f90;0x792ad5f0d97b;0xf0b681441d6af;0x4f134fd28c7a8;0x7e1c8267b3352;0x765504f90aced;0x691b08ff77da5;0xd3b6fd95d71f1;0x1];[0x1;0x2370a168fe310;0x527e6d737bddf;0x5d2a73138de3b;0x5a53df0519cf0;0xfbc92511d7323;0x20712054fc672;0x98336767097f2;0xd171f4f934e1c;0xd53fe2aed1001;0x14c400522a6d];[0x0;0x76ff4a1dfb4c4;0xf3a6db0a98053;0xbe99f141b464e;0x80a7083fada62;0x16a2ba211cd92;0xc37d3fab65f1f;0x81ad8a0cb5a0f;0x8f9f759582291;0x5a5dc32b95fc1;0x2d29d20182178]];
 [[0x324a01288194a;0x1287522632dfe;0xaea85c6d3c944;0x311e7920be210;0x5c66a84b211c7;0xb21c62e046005;0x107c07daf6ecc;0xa06e0295d096c;0xab6bdc9715ab0;0x4f1b8312af8];[0x1;0x6389f22f7f448;0xae33f170b42eb;0x60263845d2eed;0xaad7ee85d52a8;0xc027655fdc8d0;0x9ea5c1d9e57e7;0x91c66efc62126;0xcfebab136e36e;0x259acb58c1ed5;0x6254a3ccde4dc;0x1];[0x1;0x1715d9c2b8924;0x81f9ae2b48597;0x3639667e7ac58;0x31f0945a0dd54;0x1cfb38362b403;0x67e2565a93f92;0x834c24098abdc;0x9d21c7d50370e;0x3b7e59519baad;0x10f5805133dd];[0x0;0x5a78c3674e532;0x52d67fea69816;0x38f98db8aed6d;0xc250563e5eaf5;0xdd0de7fc40506;0x110eca2654357;0xceae92f649fb0;0x9a7a99f25425e;0xf163c526dc9b0;0x9ce63cbb4abd2]];
 [[0x3b0116a2ba380;0x1b63c8fcfcdf6;0xf8386e20cbbd0;0xbfc3d2d0ed2a2;0x7ef155b8efaab;0xaffe5a0f6bca1;0x8132b6849eb2e;0x520ab4df36412;0xbf226bfde53d9;0x350bd5788c9];[0x1;0xe30f225408800;0x14c2ea26cfe6e;0x5b897e132de2c;0xddfaba328b4ec;0xfe564750a4980;0x3545bc744bce9;0xf6439ed2674bb;0xc662f9e118a23;0x56593c44d98cf;0x96916b9736021;0x1];[0x1;0x6739649084000;0x2aa2d5b63c7f7;0xad999dddc1943;0x375a30dfce720;0xeb6478c93894;0xfcc1722c1c1b4;0xcddf5a4bcf544;0x44d0ba013005a;0x41c102563401a;0x12f4f94d1fd2];[0x0;0x365b3a6976900;0x7a70da2cf68f;0xac61a76022cad;0xe5fca369269e0;0x8e07ccd14ec65;0xf88f4666a8325;0x29ab93f897b10;0x4435ab1680113;0x567989efa9136;0x693f7d7c3d0af]];
 [[0x7be74ed70ee1b;0x42ed30568e663;0x43eafd4f2cf0c;0x8542314dd0944;0xfd6166ee6f658;0x8c04717dac292;0x375dab73f40ce;0x62d5e9b41933d;0xc113f3ad7f165;0x5717080cb01];[0x1;0xe302382a7e841;0xbc738f1e6d504;0xc63ee53d70335;0x4c6c84f6a1972;0xc794897316043;0x8955a08761907;0x6977ab7e37444;0xfe12405582663;0x819d373d9f4e3;0x52e8ca88ee56d;0x1];[0x1;0xee1aa5042aec9;0xda6c15d64e3d1;0x44c2f59f0191;0x7d7eca26d11b;0xdb86281934da3;0x9938ef7e7ddd7;0xc3a618357a471;0x9d9038e0761f0;0x536e3a3c13ed1;0xf4ed35ab982];[0x0;0x61ea4164423e3;0xa7e4085d0da64;0x41523698595db;0x58362f6180bfa;0x1cec73e2e11f0;0x18caac7ff80b3;0xb41f463c5f02a;0x2748340e364e6;0x318c8be7bf315;0xadbfd6b61d254]];
 [[0xb05714915a925;0xbd4b4363d3cab;0xd23a128fedd6b;0x80fbf2b7c13ba;0xd6e82c07639ea;0xf250d4845ffe3;0x54b2214e5d71e;0x9cf41e44584f6;0x6fa99dfc7295d;0x36fafc09526];[0x1;0x6cfd58cb06347;0xd0bf3f40cd7d8;0x2c54a59cfe7f0;0xa7e66c74c6e44;0x92d5b66af053d;0x6caa85bb9e703;0x74db812dbe91e;0x63aebd1fc1043;0x9ec36190a7c8f;0x92e51745d22da;0x1];[0x1;0x857803f28f49;0x3f44c8fda714e;0x6fa2860b12f71;0x71b47ffff842c;0x2cee0710c3110;0x33e3971a40bc;0xcfe425b71d1fe;0xd03b0b4174c53;0x45e69e791df8d;0x12573c83b8a6];[0x0;0x2acbb78bd0bfb;0x8f644cbd4f0f4;0x631f6a497d4b1;0x51b064da7c8ca;0xc6bfad7cb843d;0x59a19e31dac67;0x1c3034e9de622;0xb629a7d7add02;0x1686fb96352f5;0x6ca6edd8aeeb6]];
 [[0x35ee1e2def90a;0xcbec6faa11522;0x9023733c2c8da;0x7aab0d1fe0f4;0x4a0fe83a283a7;0x506ccf3f6169f;0x68da99f09e009;0x8a56f8df9d82c;0xbaa93b5cb7ef8;0x315052303ec];[0x1;0xd1552b34428a2;0x23004090cd41a;0x2a0d45fea6b37;0x381c435278cfe;0x7a530970ebadb;0x47ae6fe6df571;0xddcf3cf5362af;0x166fb987bc930;0x1d6c375c3cdfc;0x9e0ef0ad64db0;0x1];[0x1;0xe2151e31a4424;0xe5c7977f154ec;0xdc8c995238fd3;0xf6dbde34d929c;0x5631ddf2092b6;0xf646ab9823d65;0x54465af097a6e;0xb7f29002f598d;0x9db1e77afe529;0x16eb0a0a2c7b];[0x0;0x6c5b377c09506;0xc96068f53bbb7;0xd5aed84e448d1;0xd0632c7261e03;0x4227033df4115;0x5805a5cfb9d25;0x48959f04fb8f5;0xf4bbd58427427;0xb397818af3919;0x61b39dbf58413]];
 [[0x8bfadf5afc5d9;0xfea45457722c9;0xf7c178c4754c2;0x54dbdb70618cf;0xb6b4f44de54c;0x5a789e6d50324;0xbd33ce6cccdc1;0xf3d519c45a27d;0x1d0b860065f87;0x62c7caebc10];[0x1;0x9b1e54988c05f;0x9fefd4b283d26;0x339dacc01b650;0xe4ecedf81d168;0xa3dd62cc1f4c4;0xd819eead2ff18;0x5780617073198;0xa8ca12159ec10;0x808b96e9accc2;0x3b762b080afef;0x1];[0x1;0xf3bb00a821c61;0xe7ffb1a1a1d6e;0x9228a9121b155;0xd5bd30ce31335;0x2e174aa9326e0;0x857a487bad293;0xe090b221a7079;0x7070933c7704c;0xc864009cf16db;0x19d8e811d041];[0x0;0x5cdd0878c8d0e;0x4139388f8943c;0x225b53aae9ff5;0xfdccee47a1d4e;0xa815637580f39;0x546d4de17e64f;0xdd0af43a68432;0xac503046adfa;0x592375d041eed;0xc4f81bd603f3e]];
 [[0x73a6c3ff52319;0xd7cc551e988da;0x5107d1491ca3a;0xe2a8c2773311e;0xd20df9e69fa8a;0xa2df42b99f4d8;0x5599c3614f5f9;0x617362a49d583;0x9774a2358d2c4;0x47821542725];[0x1;0x7929d294ccbaa;0x77cef69791b8d;0xc7cb2133d63f9;0x25e1e94c3f495;0x477b6f780a71b;0x3cb3194de609c;0x8c7e69374211e;0xadc2157c3ac6;0x523789fa4b1d4;0x71e270f769541;0x1];[0x1;0x3b2b5f59d9ae1;0xa6679cf3e6c9f;0x8cd186fa0de5c;0x6e6cbdffd81c5;0xda1f025acb2e4;0xb55795815520f;0x4bb19d65daa9b;0xdd5f6313cec2;0xfcd17fca949d4;0x262278567bac];[0x0;0xad07c1fda465b;0x4074a1a57a1ff;0x520ac63b7202d;0x716645ac44735;0xad6dd1c8b1e85;0xb97fc0b325f3;0xc91254f3d050b;0x2624236c2490e;0xd7d523b9b0824;0x8d9e2192f5827]];
 [[0xd13df6c12629b;0xdf9a6eabb2aa0;0x6fdf23d4f917f;0x7736ebb5b5eb4;0x1f29496427d38;0x41a528f34fd44;0x6635e3ca51d56;0x2a05761737e75;0x7689b0d9a76be;0x1de3661187b];[0x1;0xc1b166f91cbb8;0x7f50a1634a016;0x392eaa66d1daf;0xe4fe060eab66;0x628c791fe0929;0x7a52200a77414;0x8fd20530f2295;0x2066371777a96;0xc251195300c97;0xc502ea14c8df5;0x1];[0x1;0x58bf57d02d1c9;0xd9b1fac528937;0x6ffac9f0b291d;0xec88d7540d609;0xa70d766143245;0x3cb3dc40df68a;0xf503bdb3ad04d;0x999f40ff126f0;0x5d459ec2bccaf;0x2a38327388b1];[0x0;0xff7c492db6e2;0xbf0b30fc2e215;0xf1ad3c5d459d6;0x73cfb516cb87b;0xb2df4de497b40;0xebcc7d4e10eb6;0x1ed5a8f0e2bea;0x3c31c1ce61b06;0x5245fef66f036;0x3add83a4e7119]];
 [[0x9657a38515dd7;0x6221df3105ebc;0x16f5359ae459b;0x2e6cfb1835a8d;0x83a349c6cabda;0x1253fb13dd1b5;0xbe829285977de;0x67357270d3761;0xdfc52f9444d0f;0x65b0e3ac1f6];[0x1;0x69efa545a8ba5;0xa75bac2a34eeb;0x36a0fd9c90b6f;0x1846aafaf479;0xcf7c35057d5b1;0x49f6a2e87e255;0xaf6104c46db5d;0x16ac851285034;0x170a92e1acd3;0x35f623ddcbbe6;0x1];[0x1;0x868458ff5bb01;0x4854f64670734;0xb83bc6e6c7e79;0xf88be0a105979;0xaf4475b29f5f9;0xde2c435eada18;0x84303e691b4c7;0x524055e70d476;0xf5b15cba41ed8;0x251bfd5f7258];[0x0;0xe330f51534afc;0xdd6d8b4052d9b;0xa375c10334310;0x7e3e3add6bbd2;0x6f45fd7d1c0ab;0x98a677bd8dd4a;0x41334ffff76f3;0x91ec7351edb1a;0x96f84a8c9c51;0xcaff093472a27]];
 [[0x803e26beb793e;0x6ef33d0b8d4dd;0xbd337daa5ce49;0x13c800fab763a;0xf5f998abac21d;0xffc3cfb9067db;0x9cc3e81da50fa;0x6a03df0f01872;0x1853abc5800ae;0x4cee6bd658f];[0x1;0xa394912ee5100;0x57c09648b093a;0x3c2e3df7b3115;0x259bceb11bbc5;0x4fa9abb054aa7;0x78acb40b00856;0xa0135f9988384;0x35e0afea19cab;0x28731c56bb70c;0x670ff6935000c;0x1];[0x1;0xe7c0f314000c4;0x71119e2a1d190;0x66de5915734fa;0x655b09ea2e227;0x370dde0096988;0x3935d46d1979f;0x45602407c2dd1;0x48ab9258257be;0xbe706dc7fb898;0x2194d0e418a7];[0x0;0xe64952eec7f6e;0x76a819778f79e;0x5174842aa1f5f;0x37250e8caa2ce;0xecb322af3a347;0xcbf368b9f0252;0x4738e6effcd5c;0x98ec6e2baf902;0xf0954a9c6994a;0x994da9cd7b65b]];
 [[0xdce1ea98b10c6;0x17a320382dac;0xf5e05edd4e16e;0xd22ca8f5ec2e1;0x22e6a9a2d15b8;0x15b896a48febe;0x29a7543f2e959;0x90d943777fb73;0x616a556a76860;0xbc804280cb];[0x1;0xe1c377e741790;0x5689d65bbac83;0x4904ec8895aed;0x90af589911fa;0x31473a5be0016;0x60c69b0b76cc8;0xc6c33ba9cef08;0x79dfbec9f6f71;0x8c98651a4201a;0xe9e1c0b64688e;0x1];[0x1;0x7893e0c5bfce4;0xb9b92e998f304;0x2fc1000d01718;0x99d54da212efb;0xee55b7c8fc580;0x3c0038eeb29f4;0x7d9b0429f41a5;0x4db7544676085;0x1e35edca776ae;0x20612b1a7aa3];[0x0;0xd071ac54dd7f2;0x9b1c74401a6ae;0x96ce6e5c8f8e8;0xf721a7e1e1582;0x6e364a0481d13;0xceaa073b48888;0x15c529ab86f60;0x23271f1f47a9;0xdb8eb44c4a147;0x170aaf9683bf2]];
 [[0x7578973f9cdb3;0xb3e212c21bcd2;0xd0c972117b671;0x1cad8f6af8005;0x1baedb0f96ed9;0x4b4bca21dac4c;0x36805a22eb31d;0xb2066ab48a9ee;0x33d67f19ad4de;0x5d0ce6b22a5];[0x1;0xf4ae5f8618012;0x436949bf293c4;0xee93d5d8bec8;0x4c4f56fa2df2d;0xea926c8619cfa;0x5876114637378;0x24fa9482be60f;0x586d963bbb4e7;0x960805d8da16f;0x47202ed7cf9bb;0x1];[0x1;0xccf1468abd619;0xe9bf7c1e6a3ad;0x30c246c83af75;0x1192e3eb51330;0xdca603f29e9e;0xdf40d981f45a5;0x36d055627e4aa;0xf545913f1094f;0x832bd805f4703;0x1fb50c2948e4];[0x0;0xae631721e46d3;0xb2c45025e6837;0x9d22b7f2024e;0x3aca92c3528c7;0xa65f0ec7d20bd;0x136bd8bb482f8;0x8e7e72da34628;0x5d32584e1cb0f;0xda7792e779d4a;0xba135a564efa1]];
 [[0x2b5544f2ad8db;0x2afccfbe1b9c;0xf550dd2f17842;0x7ccca562a9451;0xe525b0ef7a577;0xaec04b0361a88;0x3d25f5ce93633;0x98b7886e840ab;0xdfbfb909fd4b2;0x14a6ce9330d];[0x1;0xcdd0d54b389e2;0x2cf9e7b5e1673;0x22623bf5fbfac;0xcae3aded1c46d;0x48eae6ab0a26e;0x3ae3db23d0d2;0x840a01ec9f1fd;0x72f0025edd7ab;0xd594e6d311a8d;0xd842af950fe0a;0x1];[0x1;0x15691eb283b49;0x8f72698f4519c;0x36c8aa2c3cf7e;0xea15170d3062d;0x1a66a25f48dd5;0x963e5574d8144;0x3c320347b9d83;0x7750611eaeb;0xccf304a82dee2;0x270e784e71b5];[0x0;0x3fd60fb86e25e;0x1165d97a869d4;0x8dfaa515e73bf;0x2b327376a8367;0x7fa0915f3f286;0xf5dfc604f680b;0xfdc23312afafd;0xd9fab11780503;0xdff561948a437;0x28f77f92b31d2]]]
 (V [0x6ac9b1246aabc;0xcf753ce90646b;0x45cc7b3cc71cd;0x64b15446f1b50;0xf4467ffe3a266;0xf9de51b14ad71;0x91d026bcd5d68;0xf4aec79ac5572;0xd945c0f6df1f2;0x2d646aeb459] [0x66665d7474a01;0x4ef158ec694ef;0x87984c3c109cb;0xd4c4f189c2449;0xb87f4e1fd1750;0x4a5f04b90bf26;0xa95e198340192;0xfda045e813af0;0xb1b572bf13a33;0x23b9fdbb38]) [[0xa102a3a7fd8ee;0x60cf950c49a57;0x76e0c92bdc9f7;0xf905403cc2401;0xbbee35bbe077a;0x83a9b2cb3a275;0x2aba64858d239;0x5460a5a65ab50;0x26ade9b426db;0x3f127d2d763];[0x1;0x5420f01df14fe;0xfe28ea5007431;0x6bfd91c0b7fe6;0xca112bb41075;0xb7b01d4bc3257;0xe5ad7da1b287d;0xbf3ccd8efc7c1;0xd6a1f29186eb0;0x1115aa79435a8;0x836f8448637b9;0x1];[0x1;0x48c6e27ad0f04;0x3353efe92cf74;0x652e8eb2e24b7;0x3e607dfc43c37;0x1c504d5ac9a57;0x1fb0be4d87ccf;0x7428cd82c4592;0x256e600f1e063;0xcdfe009d38265;0x149546f54f37];[0x0;0x2a9ac862d414;0xb46fd49d7f15d;0x455b70f80106c;0x4ae9be7485d24;0xe6d0c04f40d67;0x35996ca7f7488;0xfa42a74072462;0xcc1b086400141;0xa06130ee3d605;0x7e507d049bee1]]
 [((V [0x42d68a8a43edc;0x7fc554664a837;0x6189f74f64356;0xd125957a660bc;0xadfe1ad1ed388;0x1c184f511af55;0x759d057737e3f;0x4d753fc9a80c7;0xc9b464bd15337;0x5967be2cb93] [0x8b679cdd80348;0x6a9222ae624c8;0x276367d9e8a07;0x3d528df5b4ddc;0xd96cbfa435c0e;0x6dc5c9d6310d4;0x570112bf19819;0xeb019c041ea46;0xe0082b1ebea62;0xc83f3ae493]),[[0xe1b774c0aaa02;0xe1b9b32d16b22;0xd9c412c0cf639;0x9c8fca841f790;0xc8032a3ff0345;0x277e4582c02a8;0xbdba0014dab7;0xe43315a8bd387;0x3f4320cddfaf8;0x4683e56b14a];[0x8a3d0b6989d7;0x67a567805814;0xff0250a0d2082;0xea57ffabb63e7;0x227213acd6f86;0xbeaf04cc71b9c;0x4eaa21628485e;0x538d641e7a1a0;0xd4c4bc7d315e3;0x7de65457e10];[0x1;0xd48e889cbb110;0xa983576d52ab6;0x87ef037fc2f8e;0xdfa1ea0e974af;0x8e2cdcaafd917;0x83273707e92b0;0x36a6f46713bf5;0x28953cfc6c0ab;0xbaa5042c2e055;0xebb3bebaec3];[0x1;0xa195574a741c4;0x80b4a436b55e4;0x7847a4ceaad2;0x9fbc34bbb49be;0xe34857ba59e68;0xee58b5438bf46;0xa2efd677dac1c;0x117fa5a48a918;0x6671099e8ef55;0x2f0f0292aafd];[0x1;0xc5a629abaadc4;0x9accb89726af7;0x356e4c776ce1f;0xdef86abc6fb90;0xabbd877628e24;0x8dd745510c4cf;0xbcceb1e72b3b0;0x501b74afdd734;0xc75df15a1e553;0x141885d3037f];[0x0;0xd4511c574f242;0xe3e0097657538;0x9c109a5d742bf;0x5d8bde2e7a4ff;0x20a94ac94da0f;0xd259c8cdba020;0xd62bfd3788d7a;0x9920d93272990;0xf3d47eb32a16c;0x8d189068ae9de]]);
 ((V [0xa4533c60bd48f;0x8c85137b07d3c;0xca5e46276b311;0xca8803ee07bb;0xcc32a0f93d803;0xf2cbd391152f9;0xe5807f089be01;0x9630e1e5b537e;0xb7dfeb803a29f;0x59b5d59ef44] [0x8175abb4f8bad;0xd7594959aecc8;0x6aa0abacf16fa;0x99e1e43dc88c4;0xec42e38c54ac3;0xda6cc5871ccf1;0x92f072892818;0x2867f8891792;0xd2a32f64a3d6f;0x1b68fff8f11]),[[0xc45576d80144;0x410f77921c8b4;0xeeafd898af5e1;0x9f267e6193d5f;0x588f03a3a24e2;0x3a7cd9708d264;0x4e23a48a1ed5e;0xa8003ad70d21d;0xf09d248d94c83;0x382f33c0cb1];[0x23744e928618c;0x4f8a973013625;0xf76587e88a388;0xb59a0e86ddaef;0xbd73a8440ef;0x42b07069b7420;0x9ece31d10fab;0xab7f0e4c691ee;0x4a877d9dc3e8d;0x6d2fc8b910b];[0x1;0x36b78c7d81410;0x1e362766895b8;0xc3e69e49ee352;0x4345fb38fd37a;0x335792537691d;0xa3291ac9cc02c;0xf71ec3622481d;0x71e4743476e24;0xa15ebba72a18d;0x9becf8e6c54];[0x1;0x89af09aa0ca40;0x2b48ee07ca9e9;0xb76286a0bc67c;0x60442caaca9c2;0xd89929fa48e8c;0x4dbd99414d666;0x16f59542c73b5;0xff5d92ce45980;0x560d8b6df88c8;0x284220418166];[0x1;0xc6cd773b91110;0xb569e3afb90cf;0x542f09ed1f85c;0xc5c941121dafb;0xe1c8504e8c70c;0x76b5c46253884;0x2030cfddc4cae;0x87fb46ca0fc10;0xc51740ddb6bff;0x200614540054];[0x0;0x75bd6faf5e910;0xd31d7224bb4f8;0x5d29b5e989c6a;0xa8f3026aae5e5;0xec9a1dd7d041c;0x3aa4ec73084db;0xb0f1ebaf6069d;0xaa7080ab69079;0xd8b516209dcbc;0x70469a86fa6bb]]);
 ((V [0x6b5d64086a808;0xd97944b8481a2;0x3469366419c4f;0x2d3b880ec12f3;0xc1397bb925ba3;0x4803592911bcc;0x6d93052b12d97;0x5287ed4bdff55;0x33bae228b5764;0x7c45d3e51b7] [0xed80edc6043e;0x4a9a205128af3;0xc7ba416a4835e;0xfbd43d211c20d;0x367e878931841;0x46f0c6fb15c8d;0x89da8d17e03d6;0x423cabf9f5bb0;0x89ac0700c2207;0x44983410583]),[[0xda4aef7163cd7;0x557c810dbbbd9;0xb9483a5702f6a;0xaae5e0cf7770e;0x8ae4d8f7b43d2;0xae04717c0b229;0x60520d32732f1;0xa5fe961b632ba;0xfc2a39ad2ef89;0x37d16807262];[0xac2534aedeb4e;0xdb7ba3bb6b922;0xefe721b312794;0x264e3161cdc0f;0x6f37262589a7b;0xc8af4bb8c1562;0xa4cc50525ec46;0x3d7da84041155;0x16e1ce5aaedea;0x32ea40ff254];[0x1;0x39ef3b8231b51;0x95c66c60cab3c;0x127bf61cb0853;0xc2deca2af4c1e;0x6b6a08729b1d8;0x12fba76100cd8;0xfe64188dd90b3;0x82ffbb4bd04;0xb3113131d9d43;0x26f4a29db4b];[0x1;0x104a955e70c36;0xd147114968335;0xd50ba8588b277;0x7aa813506bca3;0x90e7ed10d5cad;0x9c8f30d22321c;0x180a8238c1384;0x1dad719bdb0a5;0x4cdade08a2408;0x119959a8f579];[0x1;0x8a5d7692d2d01;0x49a263ca59162;0xb9d97789a82d5;0x33689f1505f22;0xd23eec009f44a;0x8b23ad3be0f2e;0xfe23b2272bb86;0x854cf572e81ec;0xf11a718eac7b7;0x2470bb249d75];[0x0;0x583db69bdc606;0xb13088aa939e9;0xeb3bf9e2b24dd;0x53ecfb2add613;0x8773970dee2fb;0x4394d11e7dd97;0x75d166f2c3196;0xe5216d0f826ca;0x1f0fc51979c13;0x6f0b8ca3cab2e]]);
 ((V [0x9188e4faae82c;0xe25cc4cbfbca2;0xbd02c40a949dd;0x754bb44e6dd03;0x4aab464d81e06;0xdc3ea9e418a8c;0xac04c971c4fee;0x12bd593e4757c;0xe3019a06219f3;0x5dcf8ec9748] [0x93ad1a38cdf4f;0x165a0392c849a;0x32fbb6b321ef0;0x11ecaaf36b846;0x2e8e1c6aa97c2;0xf2868b8e3355a;0x3fe2350581903;0x81388e8fb9f64;0xaaaac911dda41;0x49665db22d9]),[[0xe8cef3ad377ff;0x2c8cb0b5bbc77;0x6a442ffb2a02b;0x81460f306aed5;0x371b583dd8985;0x3d51145186b19;0x7bbbbaa1a6c62;0xd7a5202585f49;0xfcfaebda56a3c;0x633248deaac];[0x38f40fca73c5;0x9651e7227c4bf;0x827c3d3df2da6;0xd06880ebc177b;0xbce1bdbb96a70;0x2851d5d64d93a;0x316a54becad17;0x21c99ca76e891;0x5f40dd2df30da;0x3e5ce2cd4ae];[0x1;0x57a97b56adc40;0xc8a4700fb383c;0x2577854d2366f;0xf9cf4226e636;0x501756b05f8b5;0x5e4cee749ae7e;0x83f3a199224ee;0xdd831ff2d0d7c;0x41ba9c41c8045;0x41254f6ded];[0x1;0xd8277e6ee6544;0x5f1fd0a8fb2cd;0x6dcc4a4cfdc8b;0x30a9c67c42d44;0x7d1a57678a5a0;0xc0f01ef32e705;0x5a2397dac4de;0x410d51732ced3;0xd3b9b4a76ad7e;0x10bdbfb43ea8];[0x1;0x77b777d86b171;0x228ac2396e55e;0xca86cfaecd2a3;0x1c9189d50c7e8;0xe1d10a543fd6;0x535072e983eed;0xc60aa6d85181d;0x334caa262d232;0xe63cc0ea33b5f;0x25fd690adcf3];[0x0;0x8e7946553621b;0x180a1a2c1773d;0xc437078303b26;0x5573f690e0a64;0x749654d4b3623;0x3b0c0abb6376;0xdbcb3aa0c8975;0xb9d496708ced2;0xed0d0aa30ad4;0xc5c36253ad255]]);
 ((V [0x168c2a4187b6a;0x1a50d4bfaa406;0x22d8ba3c4f1e3;0xdc70a60727584;0x46fb8a1ab811b;0x1be26e9e95b84;0xf68ae572867a3;0xde73f3e2d3412;0xc9b5dec6a9874;0x6e710ba27a3] [0x5d66701dbe548;0x43e2972ac2cc5;0x9328c7dd73f2a;0xecbefba9f7063;0x54dbb28408a29;0x4ffe54e9c7a29;0xdc23cb3f26506;0x370833c01484d;0x4f5b328e5e034;0x3d243b3e3e7]),[[0x1f5df12908e4e;0xd737829f21854;0xcd8090d4a1274;0x96136d5b907e3;0xef048be164d9b;0x745014d4d40b0;0xaf4d0a218daf8;0x43c59cbd485c4;0x5b0d25419370b;0x3c09228e98d];[0xdf713458df25d;0x7e82444827576;0x83743c8f1fdce;0x19d252a1fc63c;0xa8475a44d11;0xd73e99b8f371;0x785a49b82a52f;0x6ee1b941fe614;0xb43f15093eb21;0x552e78ff0fd];[0x1;0x99d6becc8a690;0x48f4b36b51d3;0xe13b22a46aa87;0x6422d9d8c96c0;0x6b50a5bf93f9b;0xfa89683036d4d;0x3a591ac7b733c;0x1d09f950b6f30;0xab66dddcc49cb;0x659c05f0ef7];[0x1;0xcf7fe603aebe4;0x2bb1b08c4856d;0x3ac813839e7fb;0x8f189b7a11cb5;0x9f8194497e711;0x7a1b7ae07cb59;0xd97995998a25;0x779fcdc0be718;0x570550600f1be;0x1ba3c641c3b2];[0x1;0x37a8b7712c984;0x4e5ea6206bb7b;0x4322a6d545e68;0x65095d46a2962;0xfece02ad4b943;0x61b0621f5a68e;0xdad8a24b689cc;0xc58edd7c77e4e;0x7c342f7652984;0x237f7c15e320];[0x0;0x25040b0f032f2;0x842c988796b85;0x7aa847f6ced4b;0x63ef4e5158be5;0x481c94b40fb44;0x59ee5e2083fee;0x2033baf83d078;0x9ed0927c7616e;0x3df60aa650ae;0x77396c2b817e0]]);
 ((V [0x50f77f03b1d95;0x59943a2ab2827;0x21ee7c6f372d5;0x191c9669a3a89;0x85125c622cb4f;0x4e562f38a0c6;0xfe05e7829b730;0x7161cb1ba129a;0xe9172ba4e7051;0xf452a9c0b4] [0x10c2793bb19eb;0x8ac7c3fcd5bd3;0x66d7a2ba6652b;0xc23264783ccbe;0xc82405f18e067;0xc12c86c998577;0xf59fa8d9e73c8;0xac5e1d8c5fa82;0xa97cc09c4b3d9;0x3d32b30d1e9]),[[0x1994a85405cb;0xa2879c280f5c3;0x5b29738ff0844;0x8648c46b74440;0xefa89cc30bc54;0xd4929f2448c;0x10b6c765966fe;0xa5c331676f1a9;0x9e15663ce776a;0x6ff8177d8fb];[0x12d52a7715c74;0xb337d14ce0a48;0x5e725f167dc8;0x1c4a217b16308;0x8906166acad7e;0x68d6650e0c0af;0x595b7f634f77d;0x3acaace8c8215;0xc1a8183db2d5d;0x65a18c86fbe];[0x1;0xece4bd3c0dfa4;0x48cadc56b925;0x85d6bf9c08e72;0xfc1de2681db0c;0x1399265f8e01;0x3c0847920f9b7;0xafc9858c087f1;0x3990b7cef6d9b;0x17bb6feb0a93e;0x6bf8693829d];[0x1;0x62714eeb1b530;0x6a63b24910934;0x1151c988167c7;0x8c0fe416413b7;0xb82b75c1c960;0x641bc2b539bc6;0xb318c7041be8e;0xa9b85a1c48475;0x7234a0570074f;0x1f6d1719368a];[0x1;0xbc257df28b4e9;0xf4be0d06e9b73;0x7dced2f444f3b;0x465a00b9b7623;0x768612886eace;0xf7b8d661bf035;0xa7e639955dca9;0x943b3302111c7;0xca26ffd00e145;0x1765c5a292f6];[0x0;0x6a9c2f5525ed4;0x62ee5ceff9f21;0x98f51de813b06;0xaf2941ab2c09c;0x7c795837fc844;0x8c8085f4ed0e5;0xf54e0b464f16e;0x2580a2eedb553;0xcef7fab43ce8a;0xdfbeb9b9a5182]]);
 ((V [0xc88aaafbc0c5c;0x4d4e77f7de1db;0xc46bfd5d6b92;0xd7c21293ab49d;0xa07954b14022a;0x811ae8434d3b;0x157aef6791f54;0x5d91cd31a1ab6;0xc1e8c56c0716f;0x4b92a0f9e87] [0xf4bc76954963e;0xbc54f76523590;0xb1564d6ae1067;0xad0bae0413f72;0x404ba000417d5;0x1fe746294b519;0xd4f49129ab4b0;0x1f795163140ec;0x1fb6ba126c5bf;0x7417727b7fa]),[[0x18d69608c341;0x873b0394a2e30;0xb2ae12e2515b9;0xfb7090901c756;0xb2e905c701ef2;0x1fd5e7109aa39;0x5ed66af9243fa;0x2ba5d2cead7ba;0xbc7b904587feb;0x6e6f96fb79];[0x559994265644b;0x91a463752dc3d;0x4d6619c862500;0x53375f68c3675;0xdf4c2afe401ff;0xc021923649a9c;0xd9eff83232512;0x90cc79d4dc45d;0x4006133bad800;0x30d89728ba2];[0x1;0xd47d2b3d642a9;0x5d87d1eb68a4d;0x7820799016458;0xdffe9a6426de3;0x5dd66c017d925;0x5e1a7b9904828;0x56dd2e33af9d0;0xb931b1de35374;0x6404f9424edf9;0x5fded2f4e33];[0x1;0xf907c475736f6;0x2e9318a2da5a7;0x2cae965f4cbef;0x1c3c030c6257c;0xeb777e8ce2a8e;0x8b1c19a60d3fc;0x610b3e18a2efc;0xb560977bd1259;0x404ea4ec4179d;0x11e79ed7396b];[0x1;0x95c7d09530ff1;0x1070bb20dc294;0x1a5fff23d4fbf;0x4d9a87edbc000;0x47e1fd0024ba2;0xca7a7260586a7;0xbc9f3aa3e8d6f;0xf01ba463f9221;0xb0878eed053a2;0xd3daa437356];[0x0;0x21639e610ccd8;0xbb1a787ccce7c;0x35706b14f8125;0x9dcfee45a618c;0xa44e9128a2042;0x76e760d4ca032;0x71f867673b735;0x18307c329fabb;0xb22141842abfc;0xc6f051b8d49b]]);
 ((V [0x148377116a223;0xb076f62057516;0x18acb31a7b068;0x7892a886d212b;0x92e17d0316957;0xe6c045cf4320;0xf0bcf7774f26d;0x8e1b741f95d6e;0xc1614908a4656;0x563b67ca0d8] [0x2cc9c87ed9c63;0x5f82098735b7;0x46102c0470acb;0xd1495305ad9f8;0xbd4d4f2361bdd;0x93431512bb7b;0x54782592afe86;0x1386c5dc55b97;0xcff024d0a49ec;0x4be55b5da3d]),[[0xf2d0674b3f99c;0x8ef556db56bab;0xbbddade87fe42;0x27d9d0352ad6f;0x9d3027154fd77;0x463ac24df607a;0xd52cdce51d54b;0x5ce98a6ab6357;0x8968e9d1f127a;0x7e640b5f02a];[0xf1d006b00e0ad;0x148275acfc03e;0xa24296713d632;0x674440187b9cf;0x55e56a519fc8c;0x9a006f98a9663;0xec4c9098fe17;0xaadbd448a37e6;0x1e88486c0902b;0x215fe160ceb];[0x1;0xa9f97b6584810;0x35d467c9d89b4;0x89a1ebd91a398;0x1014704b0913a;0x53ce7ca561905;0x29769f97da68a;0xffd7c3d0ab991;0x7c0785b2c82ac;0x554f472299a6b;0x16214624bc6];[0x0;0x222c0153e6970;0xe5ff8345a5fb4;0xa78cd3b9e4ce0;0x5519988df79ff;0xf95cc6dbf8fd2;0xebff0c03cfb7b;0xcb1c3a5900dc4;0x418f3d348fd0f;0x9474e619e442;0x1d045a618b6];[0x1;0x840407707fe10;0x2501c42f28e1c;0xbe34bb2006b96;0x57660409fef79;0x3956abb296904;0x5907cd930f0a;0x7f08906d0b056;0xdeb868b6c1385;0x5fb8b8bbd8409;0x15df40ee6ea5];[0x0;0x4ac687541a7a0;0x9e0824f9679bc;0x4e7065a4b06c8;0xc29e593eac416;0x37a09301ef04d;0x2eb71dc61acd6;0xbb6e22feca075;0x6d958feb288b9;0xcf3f4c75faf19;0xfbbbfab52f6b2]]);
 ((V [0xb053d0ced2752;0xd23fd2e7d28a4;0xf4b662df29b96;0xca6319adf2f0b;0x3c755ae8e0be4;0x143eb2835cd84;0x4b5adbc559f18;0x5486e3d7f1a64;0x9c1df6d67ee;0xd2da12e8e3] [0xe0972e29718c5;0x3435cf1098084;0xaa3bdf70d5296;0x657e3ea8de065;0x15f1c38138b2c;0xa65a8e4d24754;0xaf9b12b519e7a;0x8a972e03f1621;0x2d0d103614e4e;0x1be8f8c7b28]),[[0x649c9158cd55e;0x9c68a37c14ec6;0x3459777167c57;0x2b8858589fc65;0x6305c75b25991;0x77930ff4a857e;0x35c9a9c67dd6d;0x911a197e3f22d;0x914ed3a78d804;0x1bfe0ee8569];[0xcf50afac7dfa2;0xe2c8caf7ad6ac;0x7b98441be17f4;0x550687676e41e;0xd32046256b4d8;0x56fd743c7cb1e;0xf859cf8d193c7;0x64fa086d9c5be;0x4e402ee85c639;0x29eb84f17a2];[0x1;0xa28b818fc11b9;0x91f3cf426768d;0x69fe212d1964b;0x25c443478ed28;0x661ade9e92655;0x2bb88cb906997;0x3ab4c1eb22dd7;0x676b83dc3be7b;0x8a075a8bea722;0x19bf1ad96fa];[0x1;0x8a50fcc14b974;0x8e04ebacbbf74;0x52d0405183d60;0x7d93741b077af;0xa82622d3764c2;0x3a1d387637d6;0x4feb449c9bbd4;0x9d4b54dfd3e42;0x5c38f5542e29;0xda53132d0e0];[0x1;0x7cacabe4cec44;0x7486e2d5419df;0x192796524bf45;0x6f2e55c112ccc;0x83710d04b082b;0x7a249fbd99f14;0x2018839bc892b;0x6bb6a071232db;0x3aecb3cc2b28a;0x16d29baf8223];[0x0;0xd440b8f291280;0xb936a5c3ab8a8;0xc680c4dbcf8fa;0xd169d9f46cfe1;0x7c1e80ae7385b;0xd1d33997f0533;0xccf4cd0284415;0x6c45963e1964;0xf109bc44df076;0x3758791f07e18]]);
 ((V [0x216b864f6f6ce;0x65ac5969ac27a;0x5c762529bc67f;0xf9a32fa476f3d;0xcecd25b7be489;0x6fd2d0e91b964;0x86f66bcda39b7;0xf2e77c9f6d476;0xd1a83c2c064d3;0x4b95aa65646] [0xb04cabb42e5f;0xf37feb35c657d;0xe7ee4c7396c7a;0x7fb26c564510d;0x5f2a81c3d8260;0xb09a38a182ca3;0xb2c49eee6f30d;0xe2eb531456ac0;0x2bcdc98a31c96;0x637f040054f]),[[0x867d93d7b03f7;0x2f5fd99e11785;0x21238c155639c;0x681f08c26e550;0xf5de74073c426;0x9ba3c26db686e;0x9c0c9524c8fbe;0x6b2ef2768ee4b;0x95648a1eb9ad2;0x44be3acfd3d];[0x636cdabf6db8c;0xd0d3346dee116;0x6415e9e1e6641;0x52524eb091e9c;0xcf6b0b0806ee1;0xfd67e17004b13;0x711e4c6604446;0x7e609c96569b8;0xd4aa7321a0e8c;0xb81a9736e3];[0x1;0xfd8b772209804;0x6e8141fd40b42;0x1d27187f92216;0x3dd29a6ffa221;0x4975611938de9;0xc3c29c584aeb0;0xf38f8690d5287;0x360b6a6519572;0x5aaec7d7b69fa;0x15a7fde547e];[0x1;0x23dd68948c0c6;0xc8b8a37b8eb;0xe6773d61eb2f6;0xde2f55a5f57b5;0xf58cfd340d631;0xd09535ed7bbcc;0xe97bf8cd906dd;0x6bbeda98ab2;0xe52469f8886ce;0x270f7b18138];[0x1;0x731f75d5b4cc1;0xe423e0ee4847;0xeef03bbbca2ad;0x984900ed5744;0xbd382fe82556b;0x40942739cddc;0xbea94d06bcefc;0x8cbf79d969097;0xd9bc27c68246;0xa6f6a0517c8];[0x0;0xb909b0017c25b;0x7a6e11e661888;0x9a1b96d6975a5;0x6f2cf9b16dd0;0xb05425ae4612c;0x82466fb5876a6;0x35a6a4085efca;0x1d10762702057;0xf2341ea6651c2;0x88a0dfdce830a]]);
 ((V [0xf8cb6d66d521d;0x80899d4766bee;0x5e80277d15102;0x2e8545f65b859;0x27934e8d67749;0x91cbe01badfeb;0x89620cbc0ceba;0xb53e71134d3b0;0x77bf83c82f825;0x5d3e76bc535] [0x5e4a82383a8bf;0x6a420a0e073f;0x48f85874be78d;0x1e2471497f83b;0x8d6d550860bce;0xc7089296dfc8d;0xe6116bf7e94df;0x779bc331a2083;0x6021b4a611f33;0x5e791a200ea]),[[0xaa98d18d9b228;0xe0cc2c8e69a45;0x44692526c50e9;0xc2aafa26f20d6;0x5570d16a4fc1a;0x35126aaf51b28;0x4c268de1384f3;0xc74e7a03268c8;0xc27038c8f5d26;0x7344f3d8c7];[0x5b6e007cc46d0;0x9c994d834ac70;0x199ccf5829030;0xe1b63d89d80d6;0x77eb6622d53ec;0xcb4343daff5f4;0x935ec77f6c5b5;0xa3da6ed86680b;0x271d4c343bc35;0x55f19e5af59];[0x1;0x8b85e1fd6d784;0xf8f0b930bb65c;0x4454c24cb8612;0x4c3a9167e3f2a;0x59711f9134cef;0x506f66bfa9ae0;0xf9e2cca3733e1;0xb7f79d0ec5d6f;0x19782ca25eeac;0x7f412a07829];[0x1;0x659b7416386b0;0x3d7eec7a0d82d;0x3ef6eee604aaa;0xce8ae78bd6fed;0xe4080acfb2c6e;0x8912bf250f758;0x1719c14b39d42;0x638a92e144f79;0x8046f01cb8e58;0x1f8767f4dff7];[0x1;0xd66641df2a240;0x691af16fd4d36;0x905d474887719;0xca064543c6fa2;0x6da1c9aa58206;0x5a5b33149120b;0x512da6dcf48d1;0xf2ed8d442270c;0x591d9ad180248;0x1e86bc902e9f];[0x0;0xab37046df9300;0x716391d0c3580;0x9ba72be9792a1;0xa55b5a443a1db;0x543973188ddc8;0xe22b264c1c50b;0x15154afd8ff85;0x12010f7f9d31e;0x60657764b47f6;0xceae41b674d4]]);
 ((V [0x1081495d7aef5;0xe33454eb4b821;0xd642de3de2afa;0x352c024749ce4;0x9a5abaf21dcc1;0xfc2477b4f3430;0x6ec0b1ba9052;0x59b1b833b03b1;0x2c2e022c6aefe;0x26b203d3d8b] [0x14f3f5e8938bf;0xed2fb6b870ad1;0xf9826e711b885;0x87156ca25a176;0x90c12d769f07;0x5ad7f3ab83c4a;0xac0f44b9216d0;0x3bb610bfc5940;0x99ca2c07c53b9;0x275d2e5e6a7]),[[0xa21c6b2314c6;0x6893da0e164;0xcff57c3df1fac;0xeedd40c64bb3b;0xb27f96b8ebc1;0x8687a730ff77c;0x671531cc91715;0x565b5c773783d;0x12d87940e034;0x229301517a9];[0xf36f4f0892a1e;0x66a5d596cd516;0x2c24cb2909b6b;0x8e72120cff4ab;0x31e5626a482cc;0x2f5942c2a076a;0x898c1ef51f0f6;0xbe555e16265e6;0x8e9e95d0f9d1f;0x7aa9be7f5cd];[0x1;0xe8bb36d85b039;0xc97899ec08b05;0x51adf06f6090e;0xb86e36685728c;0x6e863cf0a5d84;0x98d9548493d9c;0x3d0fc471bfa1c;0x2688e4dea693c;0x1a82f95e4c174;0xb16699f99c0];[0x1;0xa84dc4b629634;0x4ab06dba79e33;0xd16adf61da513;0x9bba11b583d60;0xadf61efd55b85;0x69b4edddd17e2;0xb3b8dbbf0f699;0xfb7a1eccd77c;0x28e2636ecd417;0x2acf12100f91];[0x1;0xfbc012ff72ce4;0x9ab2a650901aa;0x1ca13815c766c;0xbccdf19f079f4;0x64e7e362e9435;0x3e05fbe079967;0xb33cd2eed78cd;0x37aef095fdbd2;0xdeeeb19f9c47f;0x1b9072110ae7];[0x0;0x70897be5ef6d6;0x96649838ce003;0x3a5ec9df810ca;0x52ee0e5d106ac;0x85dc50903cd54;0x9ff22a9834afb;0x5a0316ad39bde;0x8271c20cf63dd;0x8ec479ebf43d4;0x444ba507ab320]]);
 ((V [0xfd7329f13a0df;0x21b52c8a59caa;0xad961e78cc28;0x97f76c1702261;0x60aa07ed230d4;0xd48c9f283341f;0xeb6cde0146691;0x2c6ae7928ca23;0xa5fe1f83385ec;0x1a4fe8ed3be] [0xf9121c8fea8a5;0x2d57380451fae;0x39eefe6db1cdb;0xbe4132148e52f;0x9d683af3c0743;0xa766b9da19b63;0x4419118404c3b;0xd803f6902fd11;0xf96abeeaa3a0f;0x4f74ad8aa12]),[[0x2b271ab679d5e;0x9d07e4abc34ac;0xee20293a718cb;0x87119c95e1d01;0x4830f9220d618;0xcfc827876757d;0x25f5b44f6c55b;0x421f97d7c3c07;0x7741f3019aaa8;0x3561976bd84];[0xbf37ff41659d5;0x3500a60821124;0x67739b7cbf360;0x13b95802433a4;0xcd51420c9b970;0xdfe6da49915ac;0xc0ac905cc6775;0xce064042537e8;0x9d2de59627957;0x3864570a3d8];[0x1;0x9365d0a4be469;0x237c4adc1992e;0x58b1459078cf3;0xfa3a245014284;0xadcbfb2b619d2;0xf62cbd7f85d2e;0xbf17b6681c2a8;0x4eb47104769ea;0x984136164fa42;0x6516043c0d1];[0x1;0xe02421a60b404;0x307fd78742e7d;0x8450fd8f08bbc;0x52ee0523d65ff;0xf1e93887556ce;0xda203f4725758;0xddd6658ffd0bf;0x6a6262f996320;0xe22d2ce7e75a0;0x13184d97acbb];[0x1;0xc7079e0a9cc44;0x12c724424073f;0xada3e5db1e6b4;0x83e4e819772e6;0x3168ea2cc8edd;0x10df3445ddd7a;0x2d496ed18e95;0x49ff75c8dc56e;0x5a90d86962a;0xb924c55c58f];[0x0;0x7afd01c8eb28a;0x461870d6db93c;0x8f3d2d1b0eaa8;0x52effdec882e7;0x2a983dd46e8d;0xe49ad0b1e6bc4;0x48dfaa627e1bf;0xe3a3e3f7499c5;0x61581bcf18eb7;0x6a1016c76c5a3]]);
 ((V [0x91612a2b0a9bf;0x404b507c44894;0xf608c1e432a4f;0x42f5c566ded98;0x6145a61e10dd5;0x833913ee16842;0xae80bbe456fc1;0x2e5a02132609e;0x9c33e2d3acfdb;0x21fd9ebb0b8] [0xefc9230f497c;0x1419fe7fd3a1;0x8ea6a5476d8a;0x333cb591c66b9;0x1ca093ee18a06;0xfe719f2254fbe;0x6c8ddfe05adb5;0x57a8de7402441;0xc947dda32e62d;0x345db00d543]),[[0xad43fada5dc73;0x3beecbb43e924;0xe0173bc8f0134;0x51b51f89a3a25;0x7621c1752a5af;0x22a542650d1cf;0xd86e7c5a75bf4;0xe20660d1a2e33;0x67ae774c59c05;0x1d1ef0e58e4];[0xbfc1768dc099e;0xfbe11350c7700;0x3dd99d66eb1ba;0x20a0bb355a1e;0x2ba0d7952a8b3;0xb86fa3bff37ad;0xf4e4eb974b016;0x7c63d187b9180;0xecbd2ebcbd075;0x278735a0827];[0x1;0x3ebb52b2b5fb1;0x332b5345a1805;0x8fb036ca5638d;0x1bc8b8291dcaf;0x13961c447172e;0x96ef812c5621e;0x1af28747a729;0xa81b5a3dbb29c;0x2ba82184a60d8;0x49a5c2bd77f];[0x1;0xeb3d3a6cc755e;0x931f356393b55;0x98b46612922c1;0xfdf24729d5d73;0x3654796ba4f10;0x2ac7ffa8778a1;0x258317890664;0x4608930ff6462;0xc76a2a090ad16;0xc903f95c5c0];[0x1;0xf82297bbf3e99;0xfb7cf0d07b6bc;0xdfb8b2a2716d8;0xe1b3ca3ba348a;0xd28aeca03ab5f;0x613a1ee68a650;0x795b2ab8d98b2;0xf6c9737f2b85d;0xbf411bea32e7f;0xa69ad488514];[0x0;0x8a493e3116513;0xca3e35057287b;0x102d4f2f1ef65;0x7c6bee2463b8b;0xab6b86a6f352f;0xbe4db79d98fa5;0xbed8edb02c912;0xeae004740d161;0xb160fc084c447;0x39519cca7778e]]);
 ((V [0xce4943a459eae;0xd5958430dc83e;0x500bdfee66194;0xffde419756c39;0x605c0290d9291;0xfd5a07a1e86d1;0xa3e1193a1841e;0x6205db47ed63d;0x177119eb81c7;0x776b54d7462] [0x553549c9b394b;0xd7ec3491bf923;0x200244bb7130b;0x20c276f820d1c;0xfe3a06ac33462;0x71972ec917998;0x8a856f70ef496;0x28bfda26af618;0xadc89d6aa0fcf;0x6d42676ff6a]),[[0x4f561ec54bcd7;0xd42e5f8ceffae;0x7a50b50503266;0x1e215d091f867;0xdf0d380c9103d;0xc0579e3e10bad;0x5c8d0479d8643;0x6f4a5a1ffbd48;0x897be72fa9a5e;0x505bda90273];[0x77bc000fda761;0x890d439ed1c23;0x1935db8829ead;0x4ed8ea82a2ad6;0xa4252825896c2;0x11ff7ee206be8;0x8e97e16453568;0xc19884d340c4e;0x84dbfc48b2731;0xdcab471e74];[0x1;0xf37e53aa355f1;0xf14e24243dc1f;0xe061b4491c752;0x9f3b9cd78385f;0xa799d6d70b0d0;0x88bb3e8f3c253;0xbe06a1b9f21b7;0xad2c78491ab1a;0xd206bd666f38f;0x128eac851c5];[0x1;0x676fbc83515c8;0xe98852e03cbe3;0x3010ae48caa03;0xde39e357eb3fb;0x97b9e32beaece;0x3f806584a00be;0x9372df9f39f20;0x7948661a8ccbc;0x168673ae198fc;0x10fff68f5ce];[0x1;0xbf9248cf82d01;0x11f54d255c340;0x6a3f1fc877e5e;0xd32401aa2ff26;0x416c9d825cf5e;0x2f7d5890a3097;0x86c724217baa5;0x19c9ccef0677d;0x511c40602cc0c;0x1445a117c4f3];[0x0;0x912b8895ecd80;0x7e5a9c6b6b931;0xdc3be7bd0f197;0x5cb1a9641bde9;0xaeac54b29161f;0xfac748d735d04;0x76110111824cb;0x2d055994812b0;0x770c8972d3c1a;0x9f8f2eec33d62]]);
 ((V [0x22805c35c3eb5;0x762d40c1711a;0x8dd1a748f5979;0xd436a1716f1fb;0x3dcbd7e2624b;0xa6f7d0d9a71f1;0xceafd36d8d539;0x4a722ffa8d6d1;0xeb60f3ace0233;0x3a0fdea69b] [0xb9ab556250445;0xc622ee981688c;0xdb46ee8b43924;0xff120d8701ec8;0x92fe206184cfa;0x3b4d43a3172cb;0x20c97a516f1c8;0x260ca50c2f2e0;0xdfb8a7a16d0ad;0x6616d22fb5b]),[[0xdcc91e3c2c525;0x411d96516a2b0;0x1acc5a345730b;0xf83293d91ba90;0x8bb18f0752691;0x480b09985643a;0xc2606fbaabef2;0x771048c4a4fe6;0xaf5b1d9a437e1;0x664c5530793];[0x8b5e2a0abf0c8;0xbbd6799779815;0xca43da84604e6;0x29b97606ab73d;0x40ce43c8b53b8;0x107d8384fd7cf;0x112ab70956e9;0x19d4bc4075eb1;0xf968bc7e62154;0x2e1afaf8160];[0x0;0x14d43b6cbffc;0x8e94804c3175d;0x99b30914d3b5c;0x2d24d2fc23121;0x911b9f5e1da09;0x6a40eb65af3d8;0xfd6e7a4ac4ae1;0x1ea08c6bcbe75;0x9b23dc67b4c0b;0x1333f5d02a6];[0x1;0x13e14c1567ce;0x88cc64deec3f7;0x35f1fe9a842fb;0x5a120961be17d;0x744f50ad77b08;0xc8fae91424725;0xc42f047e360c;0x6b13112f09803;0x3d221f18b9a59;0x65fdbcac4c2];[0x1;0x764d035072749;0xd19d82f8e96f7;0x2c281356f7abd;0x8d693e67ab5b4;0x49cfc0f35bee4;0xadcbaf3578c50;0x1de76650487f7;0x55d797cb27808;0x568edf9dfd154;0x1932d79e7488];[0x0;0x5090fcf773778;0x13e07176fe303;0x26a60a9f3e579;0x3996a06ec41d2;0xee74ca89ee0f2;0x6f13b83c3a3ba;0xfbc7acf954883;0x9aac883ea7c7e;0x99bf11860c895;0xcbb4ce8d5c29d]]);
 ((V [0xa408fb13e3a6f;0xb8c1afc09951a;0x24702b1443dcb;0x2d8bbc956f912;0x72e9581bcc0da;0x1eefc52cf267e;0x73e60b956b6c7;0x1f78cc8acf2f2;0xd14a8250cc7bf;0x7d19c2d6304] [0xc679c48db0d93;0xd8aa0663d2846;0x67f5e45b756e4;0xd4c8320c3cc8;0xf9f23006a8e88;0x96a5974cf32f;0xb1033cf23ad82;0x9fe6dfbcc8eaa;0x90b3762d023db;0x7cc245becc4]),[[0x6c7b5b88d50a0;0xe815c232cad75;0x154f7a5ae85fd;0x682dead2af55f;0xf7956519e7888;0xdfe586c7d48a;0xe0cd411d6716a;0xa433c36dc402f;0x8ddb00d5db0a2;0x3174ec59780];[0xdac2a840cf03f;0xbac90e83e31d2;0xe807a4fbed841;0x17af77061d7ea;0x550bc56915ce1;0xfe059a8138fb5;0x2671ce9277024;0xb9176f0344428;0x97f673b71f845;0x5d7fc45dacb];[0x1;0x3337f37a501e9;0xc87d63c9b466c;0xa80f5471e828b;0x54dd47ea92a50;0x6070b6ffe4485;0x3b0e1a996aece;0xc8541909d4035;0xabe8b83ed861b;0x35a2db9b56a6f;0xbae532579ac];[0x1;0x170b198e47240;0x5c9e289cd50cc;0x9068aa46efea8;0xcf4ec30c35881;0x8981b9a88cd3d;0x490e5ffdf45f2;0x984b55fa6aa1a;0x69225aefce826;0x4f864cbd8d9f5;0x1e21a9ee5b07];[0x1;0x567505c742400;0x4bc688550e551;0x7f86078048b70;0xac516b0aebe4e;0xce1bbb254f402;0x60cb79652d53a;0xb299bd7abd7ff;0x5b9382af093a6;0xa7e968d9f88db;0xf59b8d93711];[0x0;0x7cef0bf4720e0;0x8fab78dfea6e3;0x9056a02744377;0xda0f18df4d1f1;0x60c78c52e84cf;0xfcd51d9803e6f;0xddf3b5f71c36f;0xd0853f4c8273b;0x27a794daa1e28;0x6126ac3e4c3b1]]);
 ((V [0x9a7a8e85d9fdd;0x19306b2e5ee16;0x2dadba2685154;0xead0783b0ded9;0x9abc003ff935b;0x6446a6a0f5e40;0x1ce71677e0640;0x4754af1d20e24;0x3c57293a88d1b;0x5e762bb2982] [0x6fb42eda7a579;0xb9bf74be0be2e;0xf94ed7cc4b856;0x508d6dbcab8b8;0x7c650f77e9b5c;0x1afc2f2592899;0x80b764d5bf91b;0xed49444e52654;0x9726da788229d;0x4f19fe32222]),[[0xe08815fb8ad19;0xb0e7709cc896b;0x4c8a672f30506;0x9f62414009a4b;0x6c5eb18e1e170;0x72d1c58d52ded;0xfe066b499552b;0xb4a6c883e41c1;0x734a7b962a073;0x27c8bbb8e0];[0x1e3c19f45f0ee;0xcbe96af41766;0x5af815d6aff9f;0xa3ddde8a87bde;0x6ced4ffab74ae;0xddc99d8f7cfab;0xb989042f241e7;0x12414a070e147;0xbcac8620bb8f;0x4d22280e0c1];[0x1;0xaf4b8a6678b91;0x1aa349a0c74fa;0x2f494dcc34e20;0xeca456e071c4d;0xaadbd3676053a;0x2a630727394f0;0xec8977c190f7;0x3abf8942bd195;0xd661157a1478b;0x1ffffa627d8];[0x1;0x8c72b93d0da56;0xb77d2824587a9;0xf93ed8e38ab49;0x281ae22d620fc;0x4329bab09b70;0xaff074c30e4e3;0xa75d738b98685;0x3db044f7716bf;0xb125c617a1fef;0x1c9f4155ba45];[0x1;0x41ee930cd4ee1;0x3dd322d94d7ba;0x75e64102c0b79;0xc334f458323b4;0xf89be8bee5eda;0x338b72a169295;0xaba1250ef33d;0xb2bcfb5d9b541;0xe0aa137bfd728;0x2b1470530c11];[0x0;0xb69fad2a29df7;0x91597095fc26c;0xeeffe25a0441f;0xd56cca563f71b;0xfe14f29bc9f35;0xe362e10f16099;0xd62573cef9382;0xeea9c836245b3;0x640878071218e;0x36473d93f438]]);
 ((V [0x966dc4e12e3e8;0x2db022d976ceb;0x9f51ddffeee92;0xc188538492f45;0xae5da8b36fd91;0xa07aeac4e481f;0x30ff72dae36f;0x8c64de18b998e;0xc38e66b10063d;0x6383fb5c966] [0xc9b3f658aee87;0x8b22119892f93;0x4afd667b530f2;0x20f6a69f99964;0xf7c0fc7c2d9dc;0x4e8cb4bc00cc2;0x897209b1f7ea8;0x34d4ec7776133;0x77b7214f6712;0x3ddf77c936f]),[[0x33c300824b804;0xe0e5ed2bffa2a;0xbf2ffadc0f9ae;0x369ad3cf46315;0x196307ad206fa;0xc3f0cf7e3c91;0xdc75f64fb8fc0;0xef550aa486c16;0x68f59652c855c;0x677493f0916];[0x3d15c7dd75d7c;0x9d8b0dcdca056;0x1b0f3aeaa8827;0xfe5effb0a4a06;0x2b40e5ab6a5ca;0xc6d651f40c6;0xf37e06a5ac9a2;0xf24d168588df;0xe49ff6249073a;0x727866cd93f];[0x1;0x995f208fcc5b9;0x65ab46f20f0d;0xd658025a0aff6;0x30830b2f62608;0x81e2394c9de5b;0x5023908032d05;0xd19654116b214;0xadb6d14f4caef;0x490a28f771fa0;0x9f3ad054385];[0x1;0x4f41eeea80b48;0xf45182939fe0c;0x4252c054afaf8;0x1c276f3b52c6c;0x5b39a81eda40;0x8c7551d3c30ff;0xf0a2ba505164b;0xd7482130ccfb2;0x313b9d8a08db0;0x22ef47dc3051];[0x1;0x3e190ae13d710;0x1504caf603921;0x773d82e8f9050;0x83b45ea895bba;0x173569853c867;0xeae04b5d48b3a;0x442de05183f2c;0xa2fc258f7a15e;0x29ce5fce1a703;0x1ed429d3f946];[0x0;0x7ae2a3665f770;0xad51e51e12166;0x3ed84e44c10f1;0xbd3be5c411edb;0x694d1b12e8ca2;0xdd9ea2fc8d853;0x7ef5e4f49bd8f;0xbf81ad7e9be91;0x4649d54aa855a;0xce3293d1a6538]]);
 ((V [0x74c4eb5d36983;0x3c7b1c05fbfb6;0xb7bd26ffaa6f5;0x31590c71e23bd;0x7f7c5b9101b91;0x8cd3b6768eb0d;0x5867089c682e7;0x6187d3782adaa;0x1759798dd794a;0x2aa9ac8a04a] [0xab7c10cd47881;0x7a4298c29ed1;0xb51f2d7788fc6;0x609f75931f87;0xa83fdd023711;0x52c9e708503b2;0x7a86904f613c;0x1ed331e4b2034;0x595bcda171474;0x3fe1eae20f5]),[[0xae5465fcea6a1;0x3dda5c17618f3;0x100383e3f8b5f;0x18366211602df;0x1e46c949bd5f5;0x2af624b97b08e;0x6caf030b96496;0xce6d64186635d;0x6015a3e61eca5;0x18fa63c0bf1];[0xcc38eb3d9260f;0x4b3cd781dba6b;0x3d4173b1fdd64;0x1941eba59ac1a;0xe2ece82102f1b;0x10be6c890f8ac;0xd5e145903a5c7;0x5dbdd30705a1c;0x18d25d0fbda9e;0x2ac310976b2];[0x1;0xb59b3d5fc7e40;0x29027f4e864e2;0x2932228b6654f;0x64d8e44f6e56;0x1f6776d9e68a;0xfc5bbbb67eae1;0x85d1e4a235d65;0xd7c46ed1e0049;0x26bd961384ecf;0x82770452e7];[0x1;0xa24eb8384f1ee;0x3cc788a357cd4;0x5a413bd009edb;0x8ad4f781fbbc9;0xded71f6bbad28;0x778687eb8f59e;0xa95dd995cf74b;0x7be3a7c44892e;0x1ba6d61e986b4;0xe86c85451fc];[0x1;0xeb81139769eb1;0x4b734648bbd75;0xc8811b464c4b6;0xd196b0fd5250f;0xc2a4b5c0768a4;0xc05499d3f489a;0xcc598b01e2f6d;0xf67ff93d0a975;0x3d67d54b34d3b;0x1de83775024a];[0x0;0x4e8901d1f81ec;0x18b805e7265bc;0x992bf2e8acd19;0xd0345ddf25c64;0xac87e26d87184;0x2fe2a88828c61;0x6305277fc2858;0x719ff995411fc;0x3ffee578e1f62;0x311d574560427]]);
 ((V [0x135b4042fdff2;0x460c0fd3d2350;0xbe3e4ec192052;0x74b7b6874a8f8;0x60f0342b43b2e;0x26ee8dd5299bd;0x4a4cd0d726090;0xf9de677c84014;0x1568871982ca9;0x285fe00a3c3] [0xffee13df1a19e;0xe5d5b2ef69473;0xe265cbb355471;0xebfdc165cb72;0x1500dc5864dd8;0x588f7a3128730;0x5280b90bf4cb4;0x618d7c1bebe5f;0x549baa2e76b83;0x741fbbad8a4]),[[0x214d54ae0f387;0x3bf4cdd5145d;0xd7d0d053fe81e;0x87c1550097b86;0xc12117a52b2bb;0xadc57a59b5afd;0x3804e7bde050e;0xb545f1981efff;0xb7408281cc042;0x195ed66a464];[0xf84354785f88c;0xc22dcc291a968;0x7e32e1956dc2c;0x152ac610212d1;0xa47acc9b88f10;0xb98f13830fbd4;0xe98505809dc92;0xe75527ceb16c;0x5a37a75859dbb;0x45ff10ae407];[0x1;0x43ef0bc5455f9;0xf986aab92271e;0xffe0a1130ac3c;0x70b93ad7a727b;0x7d10bc81f9e9f;0xa40020290d246;0xcf37414042f01;0x7a084d4f337e8;0x9962b02125e50;0x7dc5e73768d];[0x1;0x7a3225235f22e;0xf12e16273dba;0x430c03471d565;0x426c7bfc772c0;0xa37e76a789b6;0xe8e382f65bb0e;0x390c8626ddbe3;0x188ad6625b42c;0x28d855c7050cd;0x18aa77a7ebb0];[0x1;0xb325e506ee7a1;0x12710dea7e70a;0xc2d3d1ef24fe0;0x172f3e82b2d4e;0xde6ed17c9469c;0xb5a855467e472;0x3028cf4898c7c;0x27f7d1ede322f;0x1800cb71f223;0xf65f2036b43];[0x0;0xb310292fea800;0xa235f99f3fe1f;0xdd8674b509755;0x2ebd60a4404e7;0x240bffd9698cd;0x2b98e1c98fdd1;0xda9fd2f3b1623;0x6a16d095f94a1;0xf8fe558589f9b;0x316f7c79d0153]]);
 ((V [0x24e20bd6f0c79;0xb4920c94697a6;0xad2242e3e1eb9;0x9e96751b168bf;0xb5ed795310ca5;0x13b85ba17eb55;0xd7f155aea0bdf;0x690f815d7308c;0x537a720d77c95;0x7fc8557fe2f] [0xf84f130b6ac5f;0xd6d16c703b37b;0x8cde952ea478a;0x1b92feeff525e;0x466891fc6dc71;0x7d86215965990;0x9c2e2cefd366d;0x6904f722508a6;0x6f898d9d6901d;0x6501296703f]),[[0x638bc98147f6;0xaa83e08cadda9;0x70fc7bd539933;0x9e47bb879ab32;0xba2db70fbca49;0xb29ea14718fbb;0x67ecba79495e7;0xf7d3a333fef5a;0xbc383b7650bfa;0x751c1e731e3];[0x4504373fd0d05;0x6753250b3a376;0x1f164bf686b6e;0x848a0ce9f737e;0xe3ee29fd4c6fb;0x58c79bc54f6d9;0x684f4f57242b8;0xf2c2980c93ec9;0x619b4015b2128;0x62175cda4ab];[0x1;0x62c9c385f1a84;0x749fc790c9e9b;0xbf1ee8e92ba88;0x855195f415db;0xbba7fb3105f6d;0x7f109ee958146;0x2bfe9793de8b0;0x9b7bd7b872f9f;0x83098164d217a;0xb77285de187];[0x1;0x946aa5c18c128;0x601652ea9d70d;0x60aed1b8560fa;0xf0017ac1ac1d2;0x32d08f3d4239f;0x45bb58b1c7970;0xd4c4b4558d540;0x78837cb78c39d;0x78c7f9b458a0a;0x1780f24e2a3b];[0x1;0x7d98963677024;0xeb71cabbb4a9d;0xa77e3e8d1e489;0x768bdb7048ad5;0x385350aa3edea;0xb5362e97245d7;0x259fffb9246a2;0xa185d98302d45;0xef02954fd8784;0x135eabd50e9c];[0x0;0xbc2b7217b1a10;0x4ae8bd68856df;0xd6172673f609e;0x686466b6befb7;0x13af628c5bad3;0x5d5b12cb679ad;0xde118eb2533f2;0xc7f4f199b6a5d;0x859b1b3f4d110;0xe8ab1e8b84251]]);
 ((V [0x5a42857484dec;0xdb1a824ad3654;0x5e78f50953838;0x5918d117e4b74;0x1764fe886b9f0;0x553f35a17956a;0x5ca1d4e0bfd09;0x64560911b45a1;0xf0d5a4a2fc2ca;0x70d6d6544b1] [0xf519d3c3dbedc;0xe6769db97f5de;0xced4c944d4401;0xcbff654d57be4;0xfb1b972987986;0x7067a2693a8a3;0xbde1389be4fc7;0x170f58733478c;0x719e0be443930;0x51758d00a06]),[[0x88b66dc326ba4;0x8096f52d7425b;0x9121973210756;0xfe13498a812;0xc368449ea422c;0xc5791a91a270f;0x7d54580bec293;0x339e4c6367cfe;0x35abc3756e170;0x32b85698442];[0x76d313bb6f0e9;0xaeec6dc69d25d;0x1a6aa59a3b79d;0xfe546d9b466d0;0xb1f9730494016;0x29f5fa4c6af0c;0x9d63425cfa1f3;0x74066b66aff93;0xec08bfcf2e457;0x4fbbadfe193];[0x1;0x8f471620ee7a1;0xe48ec598410f1;0x89cb96199a5a6;0xa73486cdc614c;0x312759b0e9437;0x6ab95128dfd94;0x8c5b317bd6461;0x6ba2f65528551;0xd4f26cb836280;0x1fe698c7035];[0x1;0xba059c9449c38;0x7dfcabe7ae5fd;0xc6bf957d48ac2;0x73880b24c6bda;0x848afa47c82ed;0xe98bfc8af1670;0xbbaa76e8bab63;0x194fac27dabab;0x66135bdee748b;0x18e5a3f9b364];[0x1;0x4d2de44f60810;0xe2eb6f0435cf5;0x6d778674f2191;0x2b944c3483355;0x23f9f55376251;0x9dc954e644239;0xc82f60210e155;0x9aaf7f594afa2;0xe2417b5387a76;0x2ccb5f587fc7];[0x0;0x9c1eaf74a4990;0xab80f7ff8b5b6;0x898974b70b78b;0xbd06b6726e20e;0x74f9825b531f1;0x7cbb8754a4cfe;0xc550852ddcfd3;0x2c7f530aaf5ea;0x354926f18c36c;0x643c63f541204]]);
 ((V [0xe2913bb6dfe76;0x25c4d29380e88;0x7a0fa7da21dff;0xf338cef20555b;0x4392f29fd1545;0x39429767de5d6;0xa28d5ac808160;0xe31d3150ac062;0xc32ba4535304c;0x76eebe1ba70] [0x451e51e15269d;0xf3af6d063f880;0x43ad4cd968e45;0x2ff1a753d0807;0x1c764985eb6d1;0x79e38691d08a9;0x132a46f88e6c9;0xa268fb1ecc0b6;0xecaffa9ed39cb;0x27def69531f]),[[0xee58c0db51b6a;0x33527f14a2229;0xf35763e9d52b0;0x4f1e5c7982dc3;0xfc8ba776b9406;0x3072d0d70ff49;0xc89d2fb3fbe96;0xd27f722882929;0xe73cf0e91d95e;0x86270e163];[0x2f566f7ec1d24;0xe0b83e7558fed;0xd42f989f4f20e;0x717d89faf7d33;0x4b1d6608cb26c;0xef09474fbfa93;0x6b0cd0d1e8e01;0xf4bb0075d9e0b;0xdcee1ff464987;0x37ff0789f98];[0x1;0x5af652b0f1090;0xe7d55a63dbd5e;0xbc5293dbcfecf;0x8c774706a02ed;0x47e1c1a391b5d;0x58f3a0ddbb48d;0xf652c120f5d70;0xb0b0a114c59d;0x803debd5314bb;0xc84af6a5ee];[0x1;0x3386050645b30;0x61548b8aa824d;0x4a0c88367725c;0xeeb3647531d15;0xc13a56fede1b;0x62bd6f1ec56e0;0x14fc6faa31fe;0x8fa97e41d680a;0xfe1cc4ee9605f;0x14f4f6d67100];[0x1;0x4464c76ad5fa4;0xe7d1a16770b19;0xa7a12d7c3933f;0xd649add530f22;0x37a02c95197e6;0xa6a711e53a0f8;0x6b5750dbd073e;0x624cd9eb0effe;0xb71004989d1f0;0x2b13848eea92];[0x0;0xbd51f24465a4e;0x76166b3c27cd7;0xb712936460cb0;0x14c706c393999;0x3fd6b3f24c3aa;0xde95ae917eab6;0xa2a5562c67472;0xe2bfe80e0833d;0xadf2a141ec952;0x1a24d92c555]]);
 ((V [0x3221017db852c;0xe7e29c6fff276;0xfe6c898306f4e;0x3aeb654c0a005;0x2d3ada5ba83b2;0x8d939f8fc08c5;0xe2a2b68d9bc5f;0x16b360b6c22b7;0x7281b2b580e54;0x469f8ddb6c6] [0x2f86d4da54484;0x3c24503433d30;0x452817ddb6d72;0xeff8f7fe1a621;0x88f18e6d56603;0x40ee320b2f2df;0x68cecdf24c59d;0xc744a3fa86b8;0x485e7e9360204;0xa25c49bb5e]),[[0x9b681bbfd0bda;0x1ef51c9b5f1c7;0xb063f4a6ba339;0x470fe12b39e7d;0xce6254baf227a;0x173c10c83eccb;0xcc487b5ce2b1c;0x676cadc24d055;0x3877f5e13fea;0x2376934e253];[0xf528a6b41e35d;0x14ef1589ba35a;0xa674f19ab7e71;0x8a2d1f412c562;0xb3f4dfca95ab8;0xc7b88717c6f05;0x19dbb9cb74ac8;0x69e2e3ff6fc1f;0x219f854158df9;0x333d2770ad4];[0x0;0xa03568cd771dc;0x9e31102f80ac6;0x1eb7b05972f1e;0xcf55a09b52f1c;0x31c1c594c6fe6;0x349d1f06bd575;0xf5f0c7a51494e;0x4a579b5041261;0x99cd8f5e08c79;0x8079cedb2a];[0x1;0xe337bf9adc124;0x42fb7bea4cc20;0xab84d059a632f;0xc8769ff92bcf2;0xdea7d52930a17;0xafb74ee299112;0xf7b23c49ccb0d;0x158a779327d01;0xaf168b317f7bb;0x11d571eef07d];[0x1;0x8cbef85f81164;0x990cb99382ed;0x542a37575f94f;0x58da2d00ef8c3;0x42cdc84a2caef;0x22ed060c26ff2;0x944c50d95ac57;0xdac1129855da7;0xe7e35949a09d4;0x25f26cdbe770];[0x0;0x8d483900bb316;0xc14e7d2a1f08c;0x27f76317f8237;0xf098588a208b1;0xb342f6b0c0614;0x534dcb8632b71;0xae24bd6c59af8;0xda001c7fc1565;0xdf913b92f5ae8;0x46b9f6210130c]]);
 ((V [0x52ec1405577a4;0x52d8e722105d5;0xc5e9a8e3f0996;0x709ff4ccf97d7;0x56c44ff0d885f;0x57ebee8db951;0x22bd0e2d8480f;0x1437c23fb47a8;0xd751f2b37796a;0x6f1f68b8dcc] [0x5bcdec5867d1f;0x869e972db8280;0x3d8baa582966b;0x99e27a2daba;0x27f6f88a3ad5e;0xe4ac32d1ab5f9;0xb8f945ee23335;0x1208a3e061385;0x24587c543db25;0x16eaf93e0ae]),[[0x4e8906909c669;0xa40b455d7134e;0x8c1c3d6c5f739;0xee7fb4c4927fa;0xc3647791cbf7a;0x8a541ff0235f3;0x9d8db66bc2949;0x849841cee02c8;0xa6a5604bce37;0x5e04f2cc198];[0x54bee4536e710;0x752ed1311aea1;0x103a459b34b73;0x8658a10821a4e;0xa143313b376db;0x14b9ee759163a;0x4d0e2e868bdd0;0x848cd22626779;0x568c4f61e23bf;0x34b486edfb2];[0x1;0xf8dce06dc1e90;0x5d30157c5db6d;0x96ca2a70fb0e4;0xd34353dcb7b5a;0xd6ae888c598b2;0x7cfeeed845f41;0x2ac046669b8fc;0xb50b685eed386;0x1ca6c002cc9c8;0x4271c3d0ed6];[0x1;0x546f8dc638bc8;0x14dbf6d4e37ba;0xff18956ed4065;0xa55a54f913241;0x1982abe7b1e8b;0x600d8c72b16d0;0xb6b6d43e4a1ab;0xbf537687bdc3;0x2d2caabdeb8a9;0x12d52e7f3ba2];[0x1;0xad2ecf5325f81;0x91b7385ae9f67;0x54c99c54ddee5;0x307052d83b83c;0x6d24208ff5aa3;0x362bd3ee12cd8;0x930cbae8e2588;0xc24de33ed3b55;0x3f7fdeec08add;0x1b3adc412ac7];[0x0;0xfad94c03f7c21;0xc43edff23ef30;0xa10937e49f308;0xe6c1fe2cd5a41;0x5195bee8996d1;0xff0290501ad88;0xf5199eaf1e6f3;0xc3d59fc4891e0;0x8900475c2924d;0xbc080999bfd62]]);
 ((V [0xc2edc574723fa;0x69ac106e6ffba;0x90788eca8a7b0;0x475bb66137c3d;0x8323e8e13ec67;0x64cdc8f3357e1;0xe7a4c2910ae83;0x16cee4f31efd3;0x1721ad4c63041;0x66eda3adfb] [0x42cab3b033468;0x4b3263ca170ac;0xbdc78bcaa4be3;0x6a1ef95d35cb4;0x5e3ec932bf364;0x9aa10eb10d393;0x19a32cc3a46c4;0x9b049340b2eb1;0xa4be3e6cde5c2;0x35338de4f6a]),[[0x8addfd7a81d12;0x9ff4b55b44a79;0xac29cead18ca9;0xd4555bfb5e4d7;0xe713d93882100;0xf515c8d0909b3;0x712652fdd1bb;0x1dcaad5749a64;0x17775de305d15;0x7e72289c9f2];[0xb6bbb4240b625;0xfdad50dbce07f;0xb511eacefc2a5;0xcbb7fed8b8887;0x16b28619a2f42;0x20f1cbaba6b5d;0xbaae1775cc8f4;0x85e90253c681f;0x5dfc35e045e8a;0x60d22279511];[0x1;0x8ef71d98f6810;0x9d6367ae7531d;0xcb0b9791ab66b;0xad30070cdbf79;0xcef0eb81298c1;0x290fe4888cb34;0xd81c93329ef65;0x2505f14448798;0xf0315c814ab67;0x612bc39cf3f];[0x1;0x73981b057c29c;0xba55a30dda8f2;0x4c892f23b2c85;0x22dfe4edca3b9;0x6d3b18a45fc7a;0x84f1e729c58f2;0x243eceb6909fa;0xa24db42f13656;0x5577574fc383;0x217a5530ed91];[0x1;0x3615d341e2704;0xa92f4f197043b;0x2a79d104614d5;0x12a49dc3ea8c0;0x9053d0cf7b027;0xbfa3919a26900;0xd8a01adc8cdbe;0x71e458a914f8c;0xbecbecf5410e;0x14c723194757];[0x0;0x29f8432b1ee5e;0xb14ec27c53f36;0x61db35da4ed7b;0xbc7293f53b4f;0x63b6de406024c;0xd3e27bb787b67;0x21a0bf1156ab6;0xabedcd729a731;0xff924df49c1a2;0xfd31f17e4f122]]);
 ((V [0x1a93d40ba450d;0x5812a798cc8cb;0x7753b30ea5e8a;0x935c6b0003f3c;0xed386f6fb014b;0xf58bfd4f7137b;0x4a725b8eb497c;0xb8fe09847da0c;0x6320a518ac379;0x2f5c8f2d54c] [0x693322a7bd28d;0x3e1bb249a136;0x13d53d19fef87;0xb55f21589410c;0x24dabdb3d5127;0x66d6a0e749f5e;0x94845e114471f;0xb4a0a3793118f;0xff356e52c3e28;0x4ed25517edd]),[[0xb2a53840c6ee3;0xef77fc2ed032;0x56f199a7943fa;0x7421fbac65e04;0x1e8f7f5854bd6;0xdee7a0feed5b8;0x65a63a777e333;0x1682ec342f41d;0xca6976faec0fd;0xbc80dd9206];[0x5a9329d0661f4;0x5e0047b386e09;0xd0eb58129d76c;0x1dea332cd3d1c;0xa85ebce0a44fc;0x419e4a72f11e5;0x6c46205ad44f2;0x59e9461f0c5d1;0xc91943db77d89;0x60c8b8aa3e5];[0x1;0xba130a3fc03e4;0x4e31f78af492f;0xbbbfbbfe9d3c;0x289535fb7c44a;0xa581112cdd0ad;0xbb6b91b91e6d3;0x6d0250c636b5b;0x4c87ad9f4cf45;0xf62712cf6a542;0xc13eacde6e7];[0x1;0x821df5651f170;0xb812462ab0bf;0x9a9cb87b9e971;0xfd1d00220b15c;0x642edc5a08bd;0x3b8ac9a2b251b;0xabb046fb741ac;0xa2c4e988d91fc;0xf9964a563f2ae;0x23ae92afbb9a];[0x1;0xf8e80ce019639;0x44c4f368e2d09;0x19c9aca7178fa;0x9e038fdd225aa;0x59836caf06d99;0xc2ad9d0e82afb;0xa3e5661f119c8;0x5a83b62c1376c;0xaa16f4b4cf105;0x775eec398eb];[0x0;0xdd2f6786d3aac;0x4e167cd8a56be;0x28378ae44c9f1;0xe618bef347419;0xa2398b0c2582d;0x46b2c9cc58e21;0xeaeaca184cd98;0x8a317749827ff;0x31016250101bc;0x16901394bb0e0]]);
 ((V [0xf2a56ea590638;0x8e526a8a670c4;0x136a2f10e9aa3;0x9ea73848b3e72;0xdbd2b0687be99;0xd292a8c45db31;0x1017d0bb0e69b;0x46dbace2ee57;0xb0f25a7a4979e;0x4c3b4292b90] [0xccc39303cecef;0x8a7e3d96a3b0d;0x4a8136643faee;0xf1cbf0a83482f;0xd43f84a03d66c;0xcd8a288a49e83;0x6d22925932e94;0xfbcc6c506a80e;0x27e9201c2b943;0x51b7ebfd8e8]),[[0xe2f1609cee4f9;0x92d6e4be55024;0x5b7da23cc9163;0x3f9663acb23b7;0x7870d350f5dfe;0xd774d929f01ab;0x8e1768e8cd26a;0x2617ca9b72b39;0x1d630b122a7f1;0x4ff409bbffd];[0xf8591a7fb0910;0x2b782b7d61fc5;0xb2deb7405907;0x58d4c5fb536a7;0x4e4ee1387a53a;0x8955c73731694;0x42336bb1dea;0x470a5d9450ecb;0xae4c8263d2648;0x27937876e94];[0x1;0xea20d40c77599;0xedbb807b658a;0xf11ac003a4d3b;0xb73c84ed03620;0x976e50b12d81e;0x38000e4f67990;0x6dbdcfd4c43e9;0x5a685daa19866;0x306701e739b86;0x3da0b4da170];[0x1;0xe0c2142f288aa;0x5aea264379831;0x7ab37f64ddd01;0x2b7bccb454bbf;0xdba66d475415d;0x2c9706330906e;0x34515159e2df9;0x43ff64e3e593b;0xd8d6ee0520205;0x8afca3de654];[0x1;0xbd4371c1cc0a1;0x2b6f0dbae0dae;0xeec5d9fb91c80;0xc68b51af81f7c;0xfa8f178194a29;0x1cf60d3ea7067;0xdd3df07bfc2d9;0xaa58f7c8681bb;0xb0df6e6a6091d;0x123f7b49197e];[0x0;0x46da0f9e0351c;0x1186ed445c953;0x36e935002cd5e;0xdb444d2ee87aa;0xbbab4a1eb9d5e;0x2de0d956a27e1;0x62982cb34772a;0x893d9d87f62a1;0x57b83407a1f8a;0x9ee4ea82200de]]);
 ((V [0x60c7cf5c9d6d1;0x77e1f6eedb4f2;0x9bad079c03ee4;0x902f53d36d4c8;0xaea413f431e18;0x521f8ad403780;0xbe0532cc26d4c;0xca8410b6bda76;0x284757f275d52;0x7493069b5e2] [0x7924fac53d2ca;0x95e2f6130523f;0x6b8c7b0fd5a6e;0x42aed1849bb25;0x527260f8e1953;0xf29ce6371f893;0x6b9d211e88e80;0xb8c4af612df74;0xf3e46b3c2631b;0x4c08237efe7]),[[0xcb0572dbb004;0xc32ae056c8f51;0xab9e5615915ae;0xc7bdadd86dd5;0x6aa442ef7f5e9;0x33df257c1e58e;0x2ab48010a849d;0xbc8654aee7668;0x15708dad58b36;0x1ddc490fbee];[0x55bc549ee4449;0x1ea6b4516615c;0x7015c08371ffb;0x80c96f783225a;0xf674cc196b187;0xfb5e3b64b0176;0xd20e8150376d7;0xf5a0b341cb69d;0xb0ed82b03fcc7;0x2dfe15d04b6];[0x1;0xb84cb10d64840;0xc202908814c4f;0x98a24b06a327f;0x963c3eb8413f;0xf9119f4785aac;0xe0f5a9d4d755c;0xf525810ab4c4d;0xdfa2b98e17e24;0x66e7f13e29e42;0x2e95b122d93];[0x1;0x6fd73fc7fc3f8;0x4bf7bc8324509;0x340f63f111558;0x3cf3fca2eb05d;0xb9d6c245bb61f;0x7cfabd384547;0x6b1ea829393a;0x84621611d9f20;0x312d5cabfb17d;0xedd3e66dc45];[0x1;0x8e784bcaf9710;0x7f93f6a593dba;0xd29861f9724bb;0x871cba1d30dd3;0xd414e33a849e7;0xfdbf9812cc791;0x6052a8a24b910;0xf059ba876e8d3;0xf0bcd8a8b1134;0x2131bcb4b2e1];[0x0;0xf46aaefd61a28;0xf334f26c27f0f;0x977c14d6875e4;0x14ccaec1872c0;0xefc0e13bfe2fe;0x4f607ae09b91;0x89be2ef964c9e;0x4a0f240709db3;0x9aa4acb388033;0x3a9184f94a7f0]]);
 ((V [0xa64b203f10880;0xdaf91aef7778e;0xd147d16d50775;0x4b9bb08eb9666;0xd4c67a9815cf8;0x15545dbdf2dc9;0xe7e53dfb6e033;0xf38d8d2640761;0x7df5b12e42ef9;0x6fa95b20c97] [0xd281644a66dc5;0xdcb386af8fbf2;0x984929e72eaac;0xa7e4ac41ccb61;0x5d87c7373ef01;0x608f2e390fb8a;0x35a2b6d21d47d;0xaf0cd208f0f4b;0xe04dc05ab1748;0x65eb2e40e2b]),[[0xe80f5705fec03;0xb6f1ada3dbae9;0x117837cc7444f;0x1d059e6e856c7;0x9378b64b75ea2;0x704ab7ac597b2;0x75302868cb4f0;0x58d6d9321abf6;0xd4f0502279986;0x68cadb20ee7];[0x6c53234c10c4b;0xd71ee09d0ec29;0xf564d6c9eca80;0x4fdc7243325ee;0x4d048d214f3f2;0x2d584be90ab29;0xa8797aef5e349;0xf3abfbd3d32e8;0x873e2df7f8c72;0x176887eedef];[0x0;0x966fadfe0c1ef;0xbf69d61ad9166;0xf79f7421cd561;0xa25ad064a9f44;0x104467fd0e105;0x2882e16699472;0xc69821ea49bfd;0xa03675901eb6a;0x12d00f296db01;0x3b5a14fd09e];[0x1;0x250a4007feefc;0x259b10b068981;0xd3d2fe6f3fbfb;0x5bf26ad020e7b;0x4f4d119e6ae9;0x93d2038fabbc0;0x152ce30722560;0xa3cb2f99cb5fe;0x540618b8be502;0xff4f7e7da9];[0x1;0xcc9144f3eb4f9;0xd4c16dc624c73;0x7d60271a7dc1;0x64a990172d350;0x7f4463c83d458;0xc6d2365955b68;0x35d7614b9e324;0x750db3ce69e2d;0xabc14d1af8e60;0x25bd3eb1c70d];[0x0;0x19dabae60fdc0;0xa44cde450a170;0x922b773651942;0xc85f2658f469a;0x7ff70a5dc67b5;0xf6552fb74c8d;0x227de30522da4;0xaa31a3a163c2b;0x3f948d07b9ce4;0xd09ea01dfd6bd]]);
 ((V [0x2f899aca7657b;0xee036b5d349b1;0x4defff3cc5cd2;0xe7b6078e942d0;0xabd58f6ad13eb;0xd9c54a31027bb;0xbc8b6e29e4199;0x886461ecd2063;0x88785a0d5b6ed;0x251daabf161] [0x8297afe72ebec;0x9c6603242a7ce;0x93b1da61f3120;0xc187c2e7b43a2;0xc42f7264f3f2c;0x1edcba55b16da;0xd89ebe995131d;0x5670936361f44;0x66f98aa7086a2;0x728cb00e9c0]),[[0xaff5b926bb03f;0x22c6deb08c15b;0x1921aaec4bc0;0x6b44a0111467a;0xfe38298f5de35;0xbdbb52458c747;0xcb5ff4d0c0b39;0x4a0dc4bb3bbc;0x4890781c60e51;0x69d400899ca];[0x664d567b52943;0x30296240f2d99;0x4df41f59f482a;0xbd727619a11a9;0x2426aa8562b82;0xe85c05e0a4993;0xd6716b18c6ab8;0x62be02dfdbfb0;0xc5ee088127125;0x804d8630a8];[0x0;0x7d0637edbc000;0x2ef818a9d2f78;0x572befbb2d485;0x788e087a5c0a2;0xc82c6812225cf;0x330e8312b43d8;0x74972ef1705bd;0x8842da8eb0e6d;0x7d1071bbcd7dd;0x515ee959abc];[0x0;0xb9aaead2f576a;0xe0bbfbb5c438;0xdaacfd4cc9331;0x5effc3bd2816f;0x8097bf3c7b217;0x2fb6168f98e0e;0xc51eed48dc934;0xdb75d3d164de5;0x6e4a752cccfe6;0x786a6174908];[0x1;0x5fbcf4a9398f1;0xffbe6bf394289;0xa871a05aa0303;0x3063161fa9c31;0x2e2527492c9c1;0x59be538595541;0xa4bd2b4d83827;0xb8cfb417f9248;0xb26af438e24a2;0x1b16191fdc53];[0x0;0x14bd259df4b34;0x522364b243ec9;0x4d66421fda580;0xce9fe0a9a0611;0x7963b448f6a4;0x4b2c5e3ee48e7;0xd0ba5545cbff;0x9f535641378ea;0xfd5692c969a1f;0xd29e87658053d]]);
 ((V [0x6dfc12af8b6ef;0x53b72c3171d14;0xcefec10e57b88;0x43ad9a8c17b8;0x5b648179c67a3;0x3c2aeb2181df1;0x49719964e87a1;0xe327bf160f0e;0xb5deffbd0c3ec;0x132e55090d1] [0xdece3eb3ab93;0x3a4c4d86e0fd0;0xafbcc2be1594b;0xcc884ed843232;0x10568a3bf7dac;0x6e56184d70564;0xae0af4a543634;0xef07f54a58ef3;0xdc3653748ff55;0x5db59c66a5b]),[[0x8edf47c94fee0;0x2e80d869926d;0x9e5086abef68d;0xa5786c1e5545b;0xc4e6c053f792a;0x7f695e3f9a4;0xee6d46dd2f564;0x5d2bb6c6828da;0x4c2185994aecb;0xe69a4ee7d];[0xc2008e1181174;0x7ff8fcd46dd24;0x59b1311a94002;0xb9d96e39a89ab;0xbcbc85fec499a;0xcf72f93339baf;0xe26e3546d8801;0x41a2f5abe0900;0x8778c85bb61b2;0x17e01f9a2bf];[0x1;0x5298f5802fd09;0x38e33cc2753fb;0x46fa7b6d60716;0x799f60be86866;0xa8f630509ba91;0x4e5b3fc2bab8e;0x38053755e7a8a;0x50330446b4a98;0xdad44ee7b7f;0x24fd119d9cd];[0x1;0xdf4b9bdb5dd00;0x669bf664c9d58;0xa7afb3bc65c6a;0x32bec1d4f1d91;0x6f2266e1e36a9;0x3b09b2501ccf2;0x348309b814a9c;0x915278eec652e;0x7c40a7b10480a;0x8da3ffd4914];[0x1;0x8594aa9130400;0x258d341b2e1b3;0x5076bb269700;0x949ea3bd6629b;0xda411fff6794;0xdf25d1f48c872;0x81721e28c760f;0x270212dce5474;0x1a6e0d13c01cb;0xbad1b59b2d0];[0x0;0xd53bb1b118460;0x6df0e8de2548f;0x8ffb32d8c3085;0xdff13bafcea34;0xbb373aa7f9a84;0xc6dfb82fa28cb;0xfaef2ef33282c;0x29b64bc3311f6;0xbadbb29be1b20;0x2db6eee1125]]);
 ((V [0x1eec04feb5c83;0x48794dce25d3b;0x42a1677387097;0x4b7ad486dd062;0x88b9055094928;0xcb7b4fa4c5b21;0x1d82be2b4d26f;0x3a5a091e5ad7;0xcd37d88cf0e0b;0x5ed4779c785] [0x7475ec690489b;0xf12df0bad142a;0x2960afe54536a;0x867c0791d80d5;0x1e40ff498043;0xa71254df7db01;0xd5c03dca86d55;0xb59f883c05542;0xf010cca0494ad;0xacbd353f2f]),[[0x52eae387a047c;0x914aa3333e266;0x43d05bddba3ec;0x1c7f08265fb50;0x559cf703dc53;0x476a2df5438a;0x42c083db024f3;0x69ee8264d2b32;0x7ba3178f76a80;0x34d17d476b9];[0x3afeabd167f01;0x884ae33b2651a;0xb60b9520aca11;0xd93917dfd2bd;0x5a2c4ea9481d2;0x190bed1b43bf5;0xe2600b9e4bfb5;0xb2be36a25570e;0xea1f9da8d85a1;0x2e9bbc3b8fc];[0x1;0xccdcd31e4d291;0x73672dd4e1443;0x463dac19ed324;0x2dd35ed99ff13;0x27a0cc60ea401;0xab35f746bbe35;0xb19e2e173d8a4;0x2cb50c689ab9a;0x9b258bfe88ded;0x5a57a67318b];[0x1;0x671a897c083e8;0x9b14ab7d37668;0xc4f4bdb89c54a;0x69b79a8af093;0x5559e15c47cce;0xc7c74023f92ab;0x26a17ad86006e;0x1d416d9f104d8;0xc95376db9aae9;0xca501dcff07];[0x1;0xd799d90167310;0x1d8f15ce8dc1a;0x7b5b771558770;0xd8164e7fa7d05;0x4e5bb19d3abb;0x2cb5d3afed0c3;0xf6e93b4c85019;0x9e5d9a3e220e0;0x2d5f8b69d8efb;0xf496b6b785e];[0x0;0x55e8b6f4cd2c;0xcdd46db0ae21a;0x2b216ce842a84;0xbd2d41c9d1280;0x8b36da5a3de42;0xbea63c8bfca34;0xdb20cbe6ed26f;0x44d1972086618;0x92a29dac7a00d;0x68e791df4e9dc]])]
 [[0x85e4e4902ccc4;0x83253442a86b4;0xdcb82bef5654f;0x218a1440efd4;0x874ec9e9796de;0xee3404a5a57c6;0xaf73b4248c276;0x3a1e3fcb4a069;0x2f27ba0af5574;0x75ff5c54e94];[0xc388e178021f0;0x21ce675391a2;0x78520e33a8136;0x786786fc5fa16;0xb030a4b434c18;0x659425a55b207;0x547337f5238df;0x856b22e63a484;0xf8b17ea267b6c;0x63227092cd4];[0x1;0x84b102e85e7f9;0x18f824c140d0c;0x46b20337b550f;0xc631b4123ffc5;0x8a192d7b16c0a;0xf13072c514077;0xca911dcb3c391;0x1fc6f9902e117;0x25d0076d8701f;0x800370cb23c];[0x1;0x2c6d041a5e3d8;0xc88030485a504;0x4bf0a4d544d47;0xdae3b2b334fff;0xcdaef59813561;0xe6b77cf2e1e0;0x68b04d7e42df0;0x84f4fc8dca094;0xf80a74b482844;0x23ee6f16a027];[0x1;0xc7982e2e4ad10;0x6f9b21006fbb9;0x9de2f6ae4fd9;0x2e2507bbb95fb;0xb8ab0502b36b2;0xccdd5d65a1aad;0xedd85816f823;0x474480b503760;0x3f18e569979bf;0x1d4d81a3badb];[0x0;0x2cff712404a84;0x3ead6b06b6f18;0xf196449a541da;0x9d7bb872d2b74;0x2f0a6383b5eed;0x9435b194b423f;0x2019f36b8d152;0x798f7a522d70e;0x9831064f7f63a;0xebbde10e9e36e]].
Definition wit_512B_64_11 : colwit ipt wit := mk_colwit (V [0x7f706bc796653;0xd30e3ec2db7d8;0x10967b87a2f12;0x3a6abb91040f4;0x16421509389d2;0x495d6eb8d49ae;0xbf8b1e362eb5;0x19885b6704778;0x4bdac1d65267e;0x2a07c0a122a] [0xad56a9e569846;0x673c89cc0ef14;0xc5bf2d5d05669;0xbf61b7170e341;0x9f48c26cdfe32;0x8202c3230c96d;0x86cc031a09130;0x2a75a7aad8cdf;0xcccb7fad99d4;0x7afaeea9a4f])
 [[0x5003c2629ab37;0x5d1baafc96373;0x68685853b19db;0xc88660efc7893;0x64c855a68e25;0x13d9ce9474e1b;0xa8f589d81fd41;0x1da1b0651427b;0x1a050cf0f56b;0x2c2706baf69];[0xc1498dd037b90;0x16a20e2a3170f;0x553492219df3a;0x9b892d53fd2bc;0x98e6c0e1284a4;0xbd223c25d7da9;0x820b54608a3dd;0x39cd46d82a2bb;0x25bccecd75068;0x7ee233af7e0];[0x1;0xfa45d0c332b99;0x1de619e4d2547;0x3ec2bfb13f82d;0x1922693071293;0xf319408d88058;0xee6ed0ffb4c6e;0x7c951a08f5f41;0x57f08625d281d;0x8d62416b0394;0xb0f6c2ecb7c];[0x1;0x67efc1971243a;0xe381c025d412;0x989e194db9b1b;0xe4e02c40cc8d8;0x66eb7ae505174;0x4b7115a54691d;0x802b0b54bf609;0xc73525f15a4f8;0xc0f3d04f86566;0x2c30dfea6535];[0x1;0x8f2f5de498241;0xb45e3b93b05e;0x2d592bc04d7f1;0xf73f4a2036ae5;0x4a3a2c2eed810;0x9e1fc1643199b;0xd182e986f08e5;0xf162f724a9bbf;0x2fbf9c511da2c;0x1d16ebcc9f8b];[0x0;0xa15ad0e16e1d7;0x80696169d736e;0xa6860e1bb84f7;0x2733baca65d1e;0xd88aeeb82dffa;0x980e82abfe9e3;0x698bc766e9cd8;0xaefbf4f79c1ab;0x4e7515fcd4c6a;0x56faaeedb36d6]]
 [[[0x77fcf4f3dc262;0x189895eebb0d8;0xaf42a8081f0eb;0xf0e2fd5cdc9da;0x8dfb8d7998375;0x83b2bc25de977;0xb184e7e81114a;0x49e2c1521fb8c;0x4e3dd78990e09;0x371427b2be2];[0x1;0x478b784a2f65e;0x2bf3b7862d4fa;0x8de26118e0c72;0xcd0520688dcc8;0xee7536874ec6a;0xf8a70ddf2b2b;0x466bb3d61d81e;0x21330b3eed6d8;0xb69e1564f000d;0x9311e2d7b429c;0x1];[0x1;0xaf2b561909b44;0x6c64aa1d137b6;0x34198e19070d;0xcc988a2e72b51;0x59f9ff9d41a79;0x42f37f2b4af3a;0x4fce0a996e7d2;0x51a16457dca81;0x1ea53e75110ef;0x19149d8c373f];[0x0;0xfba638dc050cc;0x2acf394928bec;0xc75717c13b405;0xbccf2ca5f068a;0x35ab02a3da69e;0x3cee05985d195;0xf804593a52259;0x8193caed2fb09;0x606fe89cc9eb9;0x6d13cb5e89335]];
 [[0x325906dfdb8f6;0xec91c4fdcc2b3;0x67ca4e0030be;0x2e6b54d612958;0x3318b3ef18b7b;0x2f8e40bc07c6d;0x77cd5a87581d9;0x666ac3359c146;0x7ea1167846eaf;0x7c39ed58133];[0x1;0x31929e8bdc2fc;0x873edee108c3d;0x3ec19eb2305cd;0x16f3e63b72d52;0xd978801a480b5;0xabe8cd7f71676;0xe9197981b96ea;0x2fcd2adc0f244;0x59ba3c3daeefa;0x867fdde482b8;0x1];[0x1;0x7f3ee315edc24;0xdb08c4d62833a;0xb434d040da25;0x40cd4efbd9072;0xefa7f63761403;0xbe3769ee784eb;0x8cc54543a6db0;0xdf369f06e5847;0x895a56a63ff1f;0xf1e5a4a60a1];[0x0;0x2e3ad30ea842c;0x360b04a051363;0x5732e10247baa;0xff714c728d943;0xa3e800683081c;0xbecd8ffe7d2af;0x97b4b524e7c56;0x3c67082704c9;0x8376fff449007;0xf77dcfd6d8c64]];
 [[0x1b1992cf0dfa;0x53c5f56dfeca2;0x7f76e01b8db91;0xfc117b2c6213f;0xa5d310b13ccec;0xd8435ab45d59c;0x71aabc1fbebd;0xeecc7c2413ea0;0xd0f3ab477199b;0x14b80f1f207];[0x1;0xa9899cb456faa;0x77d3f0d85f359;0x92112199863d5;0x42a7f6040d7c;0x36e5c24486df1;0xdb8c0cebef3a3;0x44a4389047588;0xbffe103a6cd2a;0xa298db5bc3659;0xd7ba059ed25cd;0x1];[0x1;0x321ed008c8be4;0x996277620a867;0x9e36d630879ff;0x5b562819acc03;0x8bab724e42388;0x1204bbfadb4b6;0x92e3333714296;0xb586c37869ae7;0x488a25ac2696;0x1341d35b1857];[0x0;0x8a011f6380ab0;0x2eacdcc2652b1;0xaf82e157fdec0;0x26e0dbf2fa18e;0xe3a9d0565faec;0xee58dc064447d;0x8dd17cc6ed6ee;0xb4be7fe0b2481;0xe184db5c4617c;0x28a761cee4303]];
 [[0xf61230d7aba6a;0x7d4b06432780f;0x334d07a886878;0xb37cb59f647a1;0x21cbc33229a57;0x2aa2f861ae8a6;0x43569db7bcf70;0x960645e52307d;0x350284d91decb;0x52a05a149ac];[0x1;0x342517abc47d4;0x673bc5753556a;0x5304966b5a0bd;0x6b9d091a24b9c;0x36f63f649b249;0x3281d309b9e86;0xa07873dfd4d12;0xde2a8d4415c0d;0xa0f091ebe136e;0x5c3f5584c74a7;0x1];[0x1;0xbeb4124f74ba4;0x80db50793487e;0x1ea9bf1bba880;0x65b115cd44d08;0x1d412cd675f47;0x1f530f5f3d73;0xde1ca9eb404a5;0xa30d90769c011;0xe60175a0942f7;0xd471931c074];[0x0;0x2ac804d1f58d8;0x9165b6789b623;0x42753d772052c;0x3883d93aff46a;0x57d1b78a816c9;0x96639977b025b;0x273520a102f7a;0xb4940830db475;0xa2a7faacd09ac;0xa47dec792a45b]];
 [[0xce57f948ed797;0x8c3db1db05539;0xaee9f8a9d39;0xcd230cf340d47;0xd407ad7fe6950;0x8dfe66e73e86d;0xcd0315f9c1b59;0x4b3a771ae475f;0xbf51919d8b344;0x5340a808e76];[0x1;0x9363cdd5671e1;0x131e4479e193b;0x9b0054c6e0bc4;0x230d101c76b7a;0x834fdb58e4190;0x8fd178edbf553;0xb48938b43b887;0xc15c859ac864a;0xf576592fdb931;0x5a333059deae8;0x1];[0x1;0xc2d2568c8381;0x2f2855c8c3b40;0xcbf16ca088d3c;0xfd8cb126b0cc2;0x99e45710c5b09;0x4d557968a40b5;0x8658de68e1296;0xb89c2a9dc9e95;0x7deab56b23869;0xf17be64798d];[0x0;0xac17be4029033;0x73251deafc582;0xd5a38de810bf3;0xf4dae2fe26abc;0x4e1accced8bd6;0x491cf593f03e0;0x83916f5545ef7;0x414825e2e86b7;0x71660e98f78fa;0xa5c0bb043ec2e]];
 [[0xc31ea0c86745c;0x7705c8d157a;0x80ee6851677b0;0x679d541ccd539;0x8023ef5f293b3;0x15a144208ffde;0x837cb9ebd8616;0x541b9020a095f;0x1b66e3f395001;0x3c33db7914b];[0x1;0x4008d4115df14;0xd2b595a011650;0x4cc4f958cdff3;0x42562784922b7;0x5672cd0d5c631;0x5aabaa12565a8;0x9444e6c3733fa;0xe85eee288d2ed;0x111fe96ccd6e0;0x8941630a76f4e;0x1];[0x1;0x89af084470810;0x30a4337268595;0x676e679f2c784;0x249ec640cbece;0xeb75bbba6106a;0x3ba65af0a695a;0x5b9ce458b4581;0x1424bcf193a5b;0x6ca1ca4d86e5c;0x158e3b348c41];[0x0;0x4a4a556c11c4;0xff523f43c3237;0x646093bbb8f86;0xe6a6d6a18dff0;0x883fb980347d1;0x9766885b488c0;0xd912efb82daea;0x593123332371a;0xc969758521c57;0x77b77b626fc3f]];
 [[0xe41f1f4a2cdb5;0x32c521e69f662;0xff606fecb7811;0xb8445e97608c;0xf570cbbd5a4d9;0x88068b01c65ec;0x46338f00af1ef;0x1bcc88318ae23;0x2cc80d5d98daa;0x4248ad72391];[0x1;0x7e4152ce142f1;0xc5c841b547a3e;0xf6d099b3f94b9;0x92b55a506184a;0x486f999d23d6f;0x53d1113c6eceb;0x9f1dfa9cc656b;0x3d4f869ed9352;0x54429af9908df;0x7c6fd8d3e0887;0x1];[0x1;0xe4541d66dd7e9;0x38ee794967600;0x624287045ed03;0x9924f5b647920;0xf2721961176d;0xefa040a5f7e9f;0x2634cbd4b8184;0x5abdd0ad8fad5;0xc9539ecd2842f;0x18c70c5b8635];[0x0;0x91de38e740d00;0x3707f8acee8d4;0x9300bbcc30335;0x4073884e73e9f;0x85f00c56d2d85;0x8f7069f6d9206;0xa7cf16246b3ad;0xd55ca41e6191e;0xe340461d1f4e6;0x836d7b71ffe80]];
 [[0x88219d37d6af5;0x30f48230cf1dc;0x7260e2dc5ad2;0xf51d6d856a017;0x2f1f7c7047a23;0x15747fcf433e;0x6c7e325a9686b;0x14d2e4d25e0b4;0xe34aa877e8886;0xa1e300064a];[0x1;0x402b61baf7726;0xb7ed303e1ae54;0xbcdb0773a72b8;0x6e2167c8c80ca;0xb87ee83b9fafe;0xeb53647f58dc1;0x3221e78d8bba8;0xae6cf190e9277;0x919c54a79865a;0xed18222122085;0x1];[0x1;0x800b02f4c3c69;0x3c935e3776102;0x2d2d24f405619;0x415d1b2e1020c;0xbe28c04f4a41a;0xd098685022a75;0xeef34ae714e4d;0x8777ef9514e93;0x9159c3b45ca30;0x173f34439d80];[0x0;0xa471f90649632;0xabe47210d9627;0x63e5021a1ea4b;0xd958decd443d8;0x529c16a64ba28;0x5e73162866b32;0x8f0fa4ccc3530;0x123bb3eb7075b;0x9514a8f7df69e;0x1309841f6cb9b]];
 [[0x84c276a1ad70a;0x6f7c9df1b7854;0x8cd090f85448c;0x7f7604bcea974;0x6146d603ea9a7;0x19895cf7f4799;0xddfbf0114402f;0xabf933d5d8b37;0x15cfe820a29de;0x60d124b0cfa];[0x1;0xd065ff338e572;0xbbd72377d680a;0x1d14e2c17426d;0xc0235a778371c;0x4d485a8f3bebe;0x1f2725f76461f;0xef579b4549d81;0x1a3f84aa73cf1;0xc58897ed8637;0x3f57e6729b7a7;0x1];[0x1;0x6de1bd0561c24;0x4f5f948c12ad7;0xa12aaf454193c;0x6d77590fecc1f;0xa24ca15d87912;0x94b5270a602d8;0xa26f7be661bc2;0x3bb7950f7a9eb;0x4c127f0dc22c0;0x10bff411bae1];[0x0;0x8b2f31499c984;0xc91a8fe1b5955;0x769c720c4edc8;0xacfbaf1c7aaa;0x39be0bdad7f75;0xca45f2dffcabf;0x2e1113755cfd8;0x11f4bdc756e36;0x226147681588e;0xc05dc12487287]];
 [[0xbded815924a2;0x63a082a80027;0x822b23bca4675;0xeb580d46a3094;0x2406457f0e82c;0x1e0e90ce383d2;0x3718cc5fee3aa;0x21c930d600ff3;0x5ff974e2fcdfe;0x38c4b7b9b11];[0x1;0x43d6a58885018;0x7a35895f729a4;0xa174eb5a0efbd;0x5ee3db7926410;0x8dc72b3413008;0x63a60bd681bcc;0xfcf9c973c4296;0x11405337b333f;0x4e34cfb766ca4;0x8f4f70533dbe1;0x1];[0x1;0x4530bbb5ed444;0xecc93e30a1a62;0xbba834aeae02d;0x3dd8643814651;0xc3d89f68506fe;0x12e18944177cf;0x71196137ed620;0xdd3a4524e3f68;0xb95154b9e20c6;0x1af45c245546];[0x0;0x6ef39378e0210;0x397c9c852998d;0xf89b7c73be647;0x94eeb43d16aec;0xf8a34a6eb1d64;0x6527a9419491a;0x51d2517332fe2;0x90d09f72eccef;0x7dbc1f990bb32;0x6fe79c0a8c34b]];
 [[0x4e8b88dc89d7f;0x6ba313e83f419;0x4ee5693d29be2;0x8fac58607e5ae;0x74752816268fc;0xe2ba620b6add0;0xb72b8bd1fb031;0xb04ebbb4b85b9;0x8802a2af11f26;0x45e50abac06];[0x1;0xd508a2797dfbb;0xd4463d3f54499;0x1e211a9e192cd;0x23133054ec68f;0x1af9b087e890f;0xe38537d194c04;0xa9abd60b21f26;0xfa6b83d9adc2d;0xd8508c1a4ff85;0x75355f466acd6;0x1];[0x1;0x1f4064d92d671;0xa5c857a2800d1;0xe0151e29b6921;0xafa1087e6118f;0xe9476cb3617a6;0xc6983d32cf3bb;0x72dfde916d0bc;0x1921aedaf312f;0x3a32017ca3baf;0x1f53e6c3bebd];[0x0;0x45c734a424aba;0x3b17353886550;0x41200a012f32;0x72d0f2739a16;0xb381f376ac8f3;0x684fb4706ba93;0x864a7e8d7443b;0x74ace6b03e5bc;0x258d14a1b260b;0x8b0acd474512f]];
 [[0x14bc4c10853e4;0x6346014a54961;0xa71b30708c0c;0xdfa39c8cbb95c;0x80765a956fd17;0xc0d2ebe17dcd4;0x64dfcaca3f730;0x10550fc138ce3;0xb64a998259c2b;0x20f5ae94d88];[0x1;0x16e545fd44e00;0x4f2278ee6b302;0xef407f0990ff3;0xa82dcb546dced;0x931d1e284756b;0x188e4eee53ba5;0x210506aba2eae;0x46ca5b0bea968;0xe463e38303122;0xbfcfe645fdf02;0x1];[0x1;0xb43c8e8a20a10;0x4b29ba5bc46a;0xe26c96fb56363;0x6673af243fa86;0x8457a9f8a825e;0x29b3b34bf20c2;0x3292c50b7d57f;0xbe781580ffee3;0x4af0f73e4c970;0x22fdb397ef2b];[0x0;0x20d5e102a5fd8;0xd17ce8b203fcd;0xca0246f54366f;0x683cb811baff7;0x4fb0e9a3e711e;0x125459a65ec86;0xd08510d6167c3;0x7df1ba6d9f7ff;0x7fc32e0b81026;0x40e46c753a1b0]];
 [[0x795f724f6a110;0x180c3c18822cf;0x6461209ace61;0x99a197355c2f3;0xbbd848504aeba;0xaea8b72f86b54;0xfd2807accc1b5;0xbff3512c2b78;0xfa158f3498592;0x2e66464b156];[0x1;0x140053f1920b0;0xbd91de10b4cf5;0xaf538551b3695;0x645d12192c146;0x630c147cc4cd9;0x39dab83a78877;0x229b3ded1da15;0xffde6a51bc16b;0x39c8cbcbde527;0xa42177953dd5f;0x1];[0x1;0x6a6b469149100;0x2ca4f9e39c788;0x8d3fdc4860bea;0x25bbc65445464;0x40aeeec758a27;0xba10f5f005b61;0x17ec95aa3d131;0x4e6cd75da052f;0x87f78f4ff8c8d;0x14141961b4ef];[0x0;0x49e58a1aa0900;0x3eaa899f24d8b;0x60336568dd0e6;0x165942b7e95e0;0x52fd823910cb7;0xca378b2831cc1;0xe157ae87f3608;0xe011b4c4cddae;0x70cb46c6b166;0x5ba3f3d257dc2]];
 [[0x700fb0aa929c4;0xda0842dc8f06;0xf185875bfa799;0x29bcbabaa017b;0x17032ca855a45;0xa32c6552a2421;0xd68725a31e893;0xcdf4e111e7854;0x1d34a866de519;0x23145e3e1ed];[0x1;0xef0a179492830;0x1e2c80f15f32c;0xc22aa7647f386;0xd3b53aa3ee158;0xb1ecfedd11a98;0x74c23252b9ebe;0x755c34ade848c;0x109e8a07c066;0xc11da6e4ef038;0xbb1201ed1fb5d;0x1];[0x1;0x6c2c323c99510;0xbe2ba83b8d1d;0x916e5cd02cf63;0x16c1f35c77b82;0xfe7a18d30412e;0xdf3f4416e83f0;0x641d508048946;0x52b2d755be174;0x65d2854d3702b;0xb9e463a66e6];[0x0;0x215bdb1f6e51c;0x7acb6bc2e1f82;0xa1a00cc8bdb89;0xf560d9411da9f;0x599a747aa0335;0xb6e269aeeac8c;0xdb773a2ce90cf;0x40ca407f4925a;0x639e07fb942e1;0x4516e3ad31ed3]];
 [[0xf8ae5b89d194d;0x389e99165e6bd;0xf67af143b2e6d;0x6a17a4f349af6;0xd8b27a72fb707;0xc8642769d7112;0xb96937eff9a4d;0xbb1e57178d876;0x5e577b9da84d6;0x554e28da3e8];[0x1;0x5ffcdd069d61e;0xab40b999f7edd;0x4b75bd6b19c53;0x4e1eeabc4d3e0;0x305fdd7800276;0xbb2130b62638c;0x4112836fa1a2c;0x6cdb104183172;0x247f18e1d2a70;0x5674527732f0b;0x1];[0x1;0xfb9b05a916c19;0xf5c1518096e77;0x71c212c15d213;0x329e613bb9e78;0x4fdcb949a18db;0x1f0912aca3f2a;0xa79bc0ffbdc80;0xd4a2f5c3672c9;0xcab13b7f42a44;0x1051dedefe0e];[0x0;0x29a3f9a68b55a;0xd99b6304b612d;0x13923bb4d8b6;0xa98218c0e4591;0xc04941fbd831e;0x87848cafa77be;0x40c9df7c02028;0xb0faac096a81f;0x8d05a99c1cc14;0xaa198851d7006]]]
 (V [0x420dda95661b4;0x3b9e0fb9689ca;0xac9d970a60402;0x9518149389b5d;0xb626367a88062;0xa8249178ff684;0xfd2557eec20bb;0xd4c610deedc86;0xc38ddbe7896bb;0x1d1c3760451] [0xaf41d3b2fcd65;0x9cec5e5c624e1;0xa2ce2c5287bf;0xbfbd8269532e6;0xdc1e7cac132ea;0xd3dec90aeebdc;0x8cf96417524b8;0xd5d1b213aabd0;0x670c114c63578;0x71609bf8525]) [[0x3784a57654fe5;0x94a6813c29e41;0x7d0c797d6fa7f;0x423dcb97270f1;0x9f9857387d34b;0xf7ac831e20e1c;0x69687be6f35df;0xa2167eb7aac33;0x15c723a68498a;0x5e49291cb2c];[0x1;0x89b67e56656a9;0x4f75096a591a6;0x56ce8fd0ff358;0x7d56e31773f1c;0x8079cd0b94bdd;0x9c3d2081065ef;0x79c17a476bb3c;0xda834dc34adff;0x3958977dcae6;0x445598b6eb116;0x1];[0x1;0x7611c2a00dac9;0x2289430fccbe8;0xcdab3f791154e;0x7a3f7b9747de7;0xa2ce2109fe170;0x50f83e50ea4c3;0xf79687d9c7879;0x20f316a02837;0xe5990bbeb424d;0x135bfe5c8192];[0x0;0x46fcbd9618448;0x731a8c3dd756f;0x6b7d1f0231f02;0xfdfe03fc4d7fa;0xbd0dccb6b01ae;0x1142f77d53711;0x8a6710f934e57;0x7cdf3c914a19d;0x2cc686c56f281;0xbbea622ea6aa8]]
 [((V [0xd2223a1d644d0;0xbe0b0876a74f9;0x52f9371ea7ae9;0x712967b6fcb3a;0x2b6ea099f1083;0x2acbfedf18845;0x3430ba2ccb6e2;0xb4780a29749cf;0xa1faf83605bae;0x2ea5e2af95f] [0xb8bd1eb5d9d74;0xa69bc5a52a340;0xa23cdfcc34f72;0x5e96bcf18437a;0x4920923ae0830;0x2709fea29892f;0x64d3403562503;0x1f7f53a8d9f4b;0x54c01849e8790;0x180463bf83c]),[[0x16340df6942cf;0x84379a64ecac5;0xe82711a29a093;0x540066b0e128c;0x5f5690117a996;0xef70a08575275;0xae3a9a7e7142e;0x130919a318ff7;0xd69ff12dffb2e;0x310ce33062a];[0xe79c2a79d1c6f;0x84de8b2bdf208;0x6feb79cbea941;0x7885e31a0b049;0x55123522adec8;0x25a00137a289f;0x82625e1664671;0x547a511bdc5ae;0xa2058121f4ac;0x52b0c5b2273];[0x1;0xe15173aef5590;0x81907ea190af5;0x3543c35ccc02e;0x75bd1c8bc28ab;0xb5fa2eacc087c;0x9841745c23805;0x67a6e49af2a83;0x3851693f28882;0xd3a21966da074;0x9ec2bc145cf];[0x1;0xb94c3410228f6;0xc315b60b0664;0xb1e08c1020b52;0x6e3400612a171;0xe1f88579c4b9b;0xe8f575f9a4b7d;0xd530e5a249a22;0xb3cce1515dc04;0x14b8f7e5af32c;0x1993fd62d2d1];[0x1;0xc5c1d94beded1;0xe3d516eda56ba;0x9719a11506add;0x9973469b035fb;0xa72831c1f682e;0xbc901dfa4559d;0x79744ed1d4305;0x53c18b102fe35;0x82ce17445607e;0xbef0c3a3088];[0x0;0x1ea836aaf833;0xfd5ad7f0791d3;0x13519f6db9de4;0x1344cd0f33fae;0xc99c0dee5656e;0x1e35634bca2f6;0x9101541f499a1;0x56c24a3d3b04e;0x1568daff586f0;0x613150cce8ddf]]);
 ((V [0xb470ead9a5111;0xdddac03c95300;0xa138674a37c82;0xdb1673db5451c;0x88005463d5a9b;0x7c8c8fce205de;0x24ba324883b67;0x37b21a843538c;0x2c6f95f36db48;0x73e94d6c346] [0xa918b56df86b3;0xd2ac825c64a30;0x1b683dcddcaab;0x193964f57c184;0xf517684afcfe8;0x58a03f0b1234b;0x2b6aa1f7bc374;0xf0e7ff5fc2d5b;0x384ae4ec7a7cc;0x29cb0841fbd]),[[0x2ae9a08ab3ef7;0x7852f30f55e31;0x8502f31a4e9c4;0xf5c1d053ead27;0xab401f75439c7;0x53c825f68a437;0x8d70f9d00915a;0x6aa3bde35af8c;0xd0cfee112dedc;0x7bb9ab429c0];[0x7643185ffed09;0xb0c4c51b1054d;0xf02c5c9f16edf;0xc486ecdf601ce;0x27a520b7a55f5;0x8b6ce94af9bce;0xd35f8a3ef54f;0xd653cb87b6d16;0x25b1f20d0f9a8;0x5f0e5ee0f8a];[0x1;0x3570088aa1900;0x4dd27c3c845dc;0xb912696c3c1dd;0x18cabea971114;0xb849de814c87b;0xe0839dd2636ed;0xf2319fb05750c;0xd1fef124c57fd;0x54c266329569f;0xad1cabd7bf5];[0x1;0x247bbd8816c58;0xf06dddfac9392;0xcfc18cb18f1fb;0xffbdb31d2b2da;0x620aa854f5c9d;0x118d850cb47a8;0x735e2239a0f76;0x74104046cbaa4;0xbe3dd8e696999;0x20be81c9cb35];[0x1;0x1619fec2186c1;0x36a1f1dc6e294;0x230c24203cff3;0xeef9eba9c40de;0xd2b9f81201857;0x8c54313c590cd;0xdd145aed25975;0xfe8d2e680b7df;0x5c660d82e0d36;0x12ad24320cb1];[0x0;0xec6cdcdc024be;0x6847bdefb3d5;0x437907cb9fa3e;0xbabbd72a2f5dc;0x4181c201856ac;0x40a40c41f8cf7;0xaf0b7575a359;0xcbd0a341c5306;0x3a6862ac59935;0xf7287e17ca165]]);
 ((V [0x2931e542f3b28;0xed89edbaa8621;0x690bb58c5c2f5;0xa03aaae5990f2;0xba23e78ee02e0;0xf4252829f1c09;0x9c4cb88a1c68d;0xce5d66a14e94d;0xe9567977e63f1;0x33461ce2920] [0xcd0ec8d4f0cdc;0x6b6a9b21e4949;0xb6e8ff192691c;0xe2df24607e5aa;0x281d6cc32e8f;0xc1f80a354da09;0x8bbe1be20683d;0x5533796287765;0x156c3c1f5b1c5;0x50a7351df2]),[[0xe6dd018837b00;0xa53274f3375e4;0x58309792ab39f;0x114519be205e8;0xb9a3e4c16fba0;0xc7f5479ee742d;0x65c3ca84f24ea;0xf0b2725235ec4;0x7f69a2c46be49;0x782916b0787];[0x9b8bb1dc0d422;0xb79a8bd93e9f6;0xcdaa171039f30;0x38829b9342ff7;0x3e7082abeaf9;0x615311879a6c2;0xfce02f39fdc06;0xfe53f47f81261;0xe9eb8f0623499;0x107f07853b5];[0x0;0x13a2f289d1d6f;0xc77e10a6ac058;0x812b66838742e;0x67fba72d9277d;0x7f204db350b97;0x341c01de47c09;0x3d6c013a6c25f;0x473f92803d996;0x78231edb525cb;0x47f8d150042];[0x1;0xa32a9ccc4e200;0xc67e16b508b33;0x8147ab8715b23;0xbef5b195e8ff9;0x509bd762835ea;0x4cfba07a04806;0xc5b85cec76104;0xfae4594c7e653;0xd62006b9381d8;0x1482a8c159e];[0x1;0xc1e7691090000;0x7aa285f3fa480;0x343d678243d75;0x3f9ee129f6218;0x9e52cb0d9ac9e;0x2c97c2825fd32;0x5a4c0dbc65ecd;0x68196c5dd47f8;0x48ec4a602ace6;0x1c56457ba86b];[0x0;0xc4aa08d0a3800;0xe3501f85a161f;0xe932d60fc575f;0x9a2fdde433940;0x71baba7f00730;0x7a54464b88e68;0xaa25d8c216b3e;0xa30472bb29473;0x5864749f5319;0xf0a9593db5705]]);
 ((V [0x866c08828e5be;0x18d5be22e39e7;0xca8fa977eda4a;0x47e0b62446b51;0x1b0ff7d2c3596;0xfde8752c2673a;0x64f131d1ecf77;0xc496cfca09bba;0x3f3685cb46ed4;0x5c9a0948b16] [0xb697c771cd1e8;0x3f8a832434be7;0x19d01e7370a9f;0xe86ee3042549e;0x9b46804051602;0x9d0968b5c7691;0x700aae34a98de;0x3707cc70624d0;0xd25323d15085c;0x42d1699cc23]),[[0x556784c12cd9e;0xac67d6365320b;0x5bb9836c51ea1;0x6b446d02f8b82;0x10692b60754ce;0x33147fe412f20;0xbb0346428bf47;0xf981fee45ef35;0xb6dd28d9f38b0;0x1000d76b25e];[0x678c1743beda8;0xb8fe966c7e103;0x66575ada1e1bb;0x61b4ff1d4b9b8;0x1b61c440b1b6f;0x4839a25c78387;0x95d4441fb3656;0xceb64768b7345;0x36b4351a78012;0x2abf81240f7];[0x1;0xc3ea8913d7240;0x916874f9f9c1a;0x701b9d53dc5a8;0xf62bdad795108;0x2856c27779198;0xf4db8c1ebfce4;0x1a155636e25e8;0xabd0ba88cd947;0xec691e1c267af;0x40f4fcdbf42];[0x1;0x1bc267dc61690;0x33d37f2871dcf;0xbfd413d3b8e73;0xc40478a113538;0xc710b448f8921;0x5bd7bdb8f49e0;0xa0f58875a9ef5;0x36a0e43287f5c;0xfc1bcc6c0eb67;0xff3a590c590];[0x1;0xd474870265b44;0x4453e10885909;0x1ce5a76deeaf;0x6caf0cd7105c;0x9cd4155681b73;0x44994d67498c5;0xab41bcdc6c68a;0x8263675766ac3;0xd13e61e33e2f9;0x1844c503f76f];[0x0;0x455bf2b4364f2;0xf8234897c2efd;0x5da4f67a1ad80;0x7ed5204ab696a;0xef5d0cc8e9f2a;0x6db508ba91953;0xad72962816e60;0xfb853f80b47f5;0x6036324cda807;0x1f7ccd30bf66a]]);
 ((V [0x7355a9c9d8029;0xff36811f47afb;0x7c8dfdef6e8da;0x6bb97d4605cba;0xd1ea7c234fa86;0xb118a41ace49;0xa4bdbb80a3976;0x980334a1909e2;0x7b0625cff50be;0x6abe268a10e] [0x146856963b29a;0x313f77ec7e338;0xf6c576e0cace;0xf97bbdee6fc58;0xa539556ad1cfe;0x1bdd979b6b980;0x384bf7add13d;0x78c03e0edeefd;0x44344227a9e98;0x773320f0028]),[[0x6cfef184d555e;0x9b62a1bbf3be9;0x9902e9d34b795;0x7a33d66029b28;0xbeb38b93ed53b;0xce3395367e4b9;0xfd9db23e19f56;0x6a6f040b5955d;0xb80d24fb397d1;0x2638841dd3b];[0x3101cd21cc320;0xf15a66c3d1482;0x6e4ed58741bec;0xd1add77196f5;0x83a2fef1ea9df;0x4682c1d6e6f4c;0xb0d1dfd236333;0xaee58e6883f71;0x256b808fec6d2;0x42577333272];[0x1;0x48b88ea25eec4;0xe4fe701701e1f;0x468bdd8e9693f;0xb3acd2047c1cf;0xc2a97612fa56c;0x53a3eee30427e;0xd0cd94ca2ddc1;0x33f5ad845eed5;0xdc4cdc517de7e;0x41b0bfaf77a];[0x1;0xa03eca9c86060;0x82dd78b0b3bf6;0xec22d1153d941;0xdbd3299a5301d;0x8b4a6576c0057;0xe9731a0a37775;0xe22118fa3e5c;0x6bb0017528805;0xa6e83e957121f;0x166255b52608];[0x1;0x485c1ffcaec44;0x16380bb80ce8e;0xe8a04b46ebb6f;0x35861ff9ef5de;0xd2a6f8f4c1bb7;0x63997e504d3db;0x346e1587d951c;0x4686f43ce535e;0x10a328c929a78;0x23c7acad10f3];[0x0;0xb603295ab5608;0xc6362bfe0ea49;0xb11f1410e7500;0xc6908ea209922;0x61abb1dfc42fc;0x96edc6e9f630d;0x2d3cf78d2afe;0xbb762edb0b535;0x72440b94ebbe3;0x4b1efeb397028]]);
 ((V [0x44d8685a72e80;0xd70a9d9571878;0x1e514ec65b7e2;0xf800216642c8d;0x918c3ebd1ab9a;0x441ee2bdeb4e9;0x7acd0c3f000b7;0x4d1a3e2f3432d;0x26fcdd7b32b34;0x4e72aa0cdde] [0x2468b615963e2;0x38e412449837a;0x96640c84dd086;0xb2ea706ef339b;0x643e0b236041d;0x941ab3ed29a10;0x1a66749c29e49;0x40f5baada8aa5;0xc0ffc0d7af276;0x26f0788be8c]),[[0xbfb511a9115d4;0xce355301f50f9;0xabc651c7ae6a;0xe993007e0d8be;0x7a479f80e079a;0x49628bd9b038a;0xcf73fb67b5ce3;0x84b3856ae9a2e;0x1c3ae5693821e;0x4b8fbf4c903];[0xadadb8d5cffab;0x4782a96355fe8;0x447a17ae048d0;0x2feb60ce85cc2;0x964a98289052a;0x5d593a226f20f;0xc0317a1c3ae81;0x277d5fa8d4aa6;0x5661acbe82c1e;0xaf29811871];[0x0;0x26d5e61d2e8ff;0xae833eb070dd;0xba342328bdd2e;0xc2c1fbd5862c9;0x83fdfe56fb120;0xf8112498ac5d2;0xdc499cddec188;0x5e6b67a3ba7e1;0x1aeb6fcc4e63f;0x431eda2c135];[0x0;0xfe7654d4985f0;0x784d57795024e;0xebe3cea41f87a;0xa011b337187bd;0xc4c2288549b0e;0xe8eaf7912fb27;0x2d45eb1477353;0x7f2141f877341;0xb57f4cd0ab3c8;0x4b0c14b8e04];[0x1;0xe344c888a5690;0x44a2187acffc4;0x565bbbff9818e;0xcc68aee587218;0x6f347ae6f01cc;0x177ff7ac067b5;0xcd151d28ff7ae;0x33a48a3698d8b;0x74833ae09648;0x21b42d8a5b97];[0x0;0xce73073412220;0xc146f1c07cc51;0x57b9419932192;0xbe82ddae6de81;0x64bba55af553b;0x9cf88265d34;0x46a997e8d75f5;0xdfcdfab13c55c;0x1363c75ead6df;0x963f7b27051d5]]);
 ((V [0xea134a60aeb19;0x480edbef20907;0x62a486b0a8503;0x645deea0bb231;0xfca9b680729fd;0x154d6f232062b;0x7f4bf021380c0;0x2cd4bc51eb493;0xa8a91fd39fd70;0x79176c647f6] [0x99ce398e2f0f9;0x27c859fbb853f;0x13416a80b5e58;0x3f4bd8e396555;0x762497ae8c77b;0xa65be77fb9f0d;0xccf5861b17460;0x7deefeb284cca;0xfc0cac7363d08;0x1c2e45a33b7]),[[0xce7af5467c687;0x1d3023963d79f;0x5e0c0f15ee1bf;0x3ebcb726738e7;0x5825460faaba;0x4483f032675ae;0xf3c0e164f28ad;0x799621adc8153;0x3ba9591138856;0xd370d79271];[0x6db12d042e9dc;0xa2590cde1f815;0xed26057c01147;0x47d394edd5075;0x1a0228815daa8;0x805f6cdc0ffb5;0xc4e08892f6f77;0x9c2b8cec4e441;0xb80b5401bb506;0x7886ab90df6];[0x1;0x6716d8fae4000;0x54f0e248de789;0x1b07baccbb145;0x5f1c64d7eb3c3;0xead2cc059d1e5;0x23644a07a8ca4;0xf1ac5aa40ec43;0x2b7a11b1e77b5;0x59f23e69ba00e;0xc0f9312a479];[0x1;0xbe10b689ff49c;0x3ebb973f1088e;0xb5c59e667f890;0xba45dc14f4f2c;0xd38819a1554ae;0x92528c051916a;0x38252ccb5322b;0xdafc1f1a2824;0x8a3761266d7e7;0x2cb1dae0eaa1];[0x1;0x64b5c6ed2d1a1;0x19f813376abc8;0x969448acd6f24;0x6e5b689ec260;0x131b7a075a38f;0x7634fb462acc3;0xea95e4f7ac763;0xf9a5cc0db4cbf;0x62ee4b01ed63a;0x22a9c3a9244e];[0x0;0x7100aee355ac6;0x26059bd46570e;0xb54a760bb0ea7;0xfa075cec003ff;0x5683740077756;0xbbe167e5ff074;0x83c6131180d7c;0xb3fb6421f31d;0xa5e35288a2a9;0x19f0ad7063856]]);
 ((V [0x2d30bdf8a9486;0x201d0b2cf1db6;0xaf5d8c92270c4;0xf6cf6c4f37514;0xce6169c96dbb9;0x23128a01e1463;0xf7ea832a0e2c6;0xf16fd600aec68;0x10003eceb62fe;0x270bef0d9b8] [0x652d04f34b8df;0x53990c71c9a5b;0x79c7fe99277d;0x970f9f5b990e;0xdea7f93e7a45f;0xa5758a75a2464;0x9d8993d71aff6;0xa13c64d77c59;0xb7d40518eae3d;0x77e6bc8c506]),[[0x1c77b9cc4492a;0xd78339003357a;0x326b0626c20bb;0xec284f2765a7b;0xa84885b65c4d3;0x5be0bd92ce7af;0xbef844eeba06b;0xad4b85cbfa9cd;0xc367b9e388760;0x95ebdae690];[0x1ecd93ef77855;0xfd9efe6e51ab1;0xa77b82d32eaa5;0x42e9b300c43b9;0x368fef3b75bb6;0xc4e394a8d9e5b;0xf6cd475652e60;0xba4a529dd99d9;0x8c3682f7dcd90;0x4b897fa807f];[0x1;0xb151d755aae1;0xb70431544bbcc;0x2e3fe368e328b;0xe21390d5adcf1;0x64d768401306a;0x81b85e85a8de6;0x4b3c574c55009;0xfaeb1e53092ff;0x4689f309e540c;0x2484b218bf2];[0x1;0xe1eca2e01e674;0xe97349e9a6de4;0xaa090f6b7e018;0x33e36830b84a6;0x7c72f9d742cf1;0xd26a76dcf8a48;0x8712b5e5974d8;0xb07dd64ce577f;0x28f4810dc2d5c;0x1c118c4a9820];[0x1;0xbf38364c822a4;0x174631d86cf06;0x2cf004e26c894;0xcbe78e976d9f;0x21476e54247b5;0x2b84b31b3eebd;0x9f8cf08fc2623;0xf068bb5b2287e;0x62cd8669f2bcb;0x231c5f6e0fca];[0x0;0x9af5941902ec;0x8f50600fc82c3;0xa5d9f5251ad41;0x4ae26c77afe2c;0xdc2d09f7248f3;0xb8e8ce8d0d3f8;0xc4bf0904976b;0xd5815c4c9fa8;0xe6c575fb585af;0x11a4b19ef6537]]);
 ((V [0x3307fd7b276ff;0x9c9aa493502c9;0x1f868b6b30f5c;0x7a453c066d7b6;0x8da95db890bbe;0x286ae50f98fef;0x1198956282e20;0x3927a981ea08a;0xa9ad804b2f46a;0x68fc14d77be] [0xdde69a71c9f10;0xf16468538897b;0x2b7a7bbd87fc9;0xebc569b1bf5c9;0x712b9d746450f;0x61f34a2fb405e;0x4f73f5c1f00b4;0x31b7591775807;0x60dba93d2e8cc;0x369a3e2a417]),[[0x52cb9b7dac6ee;0x114645dc72018;0x971eb989763a5;0x15ffcd9ffeaf7;0xa26ec6b24a986;0xd539c87806b76;0xe4b62ad6a5c3e;0x992a2a11005a1;0x74b9ec1064e9a;0x6a72012df7];[0x7a1523de15112;0x98da920a6af1a;0x2951ea66d104c;0xf16939fed5cd3;0x2d5ed5ddc7cb3;0xac5cf7acdfdea;0x69e80842a1f4e;0xc1c5e8e93ea14;0xab70763fada40;0x36dfbee4571];[0x1;0x2ceb0eb6f89e4;0xd9f642ce58a9c;0xb17a3cbd84178;0xd07b5f0f6ba52;0x33aa7ef699507;0xa590deb3064df;0xd47efaff29dd4;0x75666476d099a;0x745b853bbf422;0x61d636ff8ea];[0x1;0xff162970bfe64;0xbe96fa5242218;0xe22a405f1c776;0x5750c394c1045;0x381716844a19f;0x7f82812400c62;0x78d23c9e45c79;0xbba369e42b5e5;0x1b69bd239ef98;0x13cc7bd822b2];[0x1;0x5f2873f071704;0x6252c364ad7c8;0x577a6f4e8f9bc;0x2b730eca72ba7;0x66bfb44f04637;0xadb265200e7fe;0x9bfaa21c72d5b;0x3cc9f44925f9d;0xd78db833c7127;0x16dcf60ade79];[0x0;0xa700908251a8c;0x68fe071c381f0;0x31d7625490261;0x63b97440719e8;0x469a02eee1d5a;0xf384ca0e89bc2;0xcb0b0b1995d20;0xfdc86838c189b;0xe1795c6d4436f;0xbf477f6c8240]]);
 ((V [0x14ebc19503ef3;0xbaf880a0feb0b;0x9fb8d02c1dca7;0x1fefba66b4f81;0xde9a5ffbffbe4;0xe4b189bb04fd;0x4af4f6fdb5aa6;0xf93e8c9da9c73;0xf622cbc5d0b1b;0x7088283b2ff] [0xd2ac64a5e058f;0x807d34b03e2da;0x4192432d4fffa;0xce89a27d2f917;0xaf1e2c7a8b1e;0x80fe4a9879655;0xa0fd7cc02f855;0xff6b8277b00b1;0x508beaaa35c0;0x526143a8b4e]),[[0xca3edfe1f462;0x7ac4220c2793b;0x60b68ef90d3c9;0x5b8e907ca81ad;0xcb1f035a42328;0x1b49cbfa9b67d;0xf2b2de96fc567;0x2e983794fec6d;0xb2e2eb71bfe4f;0x2c491bae208];[0xced6bb1a7f91c;0xa7ec94cfc2a32;0xe6f9885fd9846;0x5ce4b10e6702b;0xb4fd513df89e;0x6d91a119f0696;0x7cecc4e4f7abd;0xa556cef13e058;0xcdf2b9a9508f8;0x52846acd94b];[0x1;0x540b5836c9371;0xa53b3b9b6479;0x19e00eb4ac716;0xfb0eee4947355;0xe59669d3d3985;0x7fb3c5fd56dab;0x1fed952f3fdc3;0x8bd383a7477fa;0xfd57a6a7a8564;0x4eed434aec3];[0x1;0x8058b3e502440;0x215bce275c899;0xe7bf89d854aca;0x6734cb91c3e6f;0x9897beac5fabc;0x6777a256aae0e;0xb2b8f7e37c457;0x519a34e158c7e;0x2b2f30e07631d;0x1c9521687e5e];[0x1;0xb748d751a6344;0xaef6190f8828a;0x9d28051e3d5fa;0xfa5f5a1a33c1;0x5016c75de01f;0xaec26948fbd;0xedc2c555cc9c6;0xf7afcfe1952c8;0xffe9d86325a6c;0x275ae370b00a];[0x0;0x1a4121e82394a;0x3b5e6d819349e;0x19946ee527b3e;0x986ce1aaae3ca;0xbfff05b113eb7;0xb73aaa22b6a66;0xafcfb50218bcb;0x4e2b0785a916f;0xa597ce2fadba7;0x57a9ecfe1a250]]);
 ((V [0x724e3dea4c5d9;0x1a39d79001f6b;0x3a08050e94df6;0xdd7283a205c83;0x1c4fd7da54fc1;0x75e9196458cb5;0x1966f7fa61261;0x1a9e5ff7348b3;0x693041d3e16ec;0x7cf77d31b14] [0xe9a544a6eec3c;0x4ad645288b817;0x8e8b246259f38;0xe0e9cf578d9ce;0x1bcbfa68293d9;0x1854fa81a2c55;0x4252608b4e810;0xca8aa593c9be5;0xce5e6e05af4af;0x3663ff86049]),[[0x934bf9d8fbfa8;0xf9f53e66db2d2;0x11964d406cc81;0xf380ecf54ddfd;0x7c774aed6269c;0xcd4a3effc7233;0x55e54098d1f46;0x9af90cd300a9a;0x7ffad91532602;0x675cdf40a8d];[0xb5bafaeb92b96;0xdd561e2d98519;0x6bbcd56865967;0x2db6331135f3f;0x125436f913905;0xbaca63bb5907e;0xc8c923dab158c;0x962a68c0cbf92;0xc0561dc3d03ca;0xa9c374405];[0x0;0xacdf797e77267;0xc303778518af;0x2c48baf836bd4;0x227b52f77167a;0x8d3fd1725d396;0x2a42df4705316;0x7822098f4547c;0x7fe169ffda6a4;0x1f9191f03122d;0x619b50549db];[0x0;0xdc151cc23a550;0x12ff13e4e7d7c;0x574a97d6e8655;0xecdebd829fded;0xb2315d147b332;0xc0230cd6ee440;0x7502a013a17f8;0xb999fce070820;0xdbc315f702c13;0x81117f5965c];[0x1;0x2d47b6cff9a40;0x98d157c16626;0x1b94fd0dd0cd4;0xc6ffcdaf9872b;0x47b2795cd3136;0xd86c910a3292e;0xba36362cc73d5;0xb23353aafd531;0x8ebc5f6f4c1ff;0x26897e0a1a07];[0x0;0x7b27e7c8c8998;0x6d7cfeb00105e;0xe4ec6842926a5;0xfc9350c1a4e89;0xd44b47d53134f;0x698277bd411b5;0xa5ac3b237a099;0x92d87835e580b;0x1ad9ca48dc415;0xce05863e213a9]]);
 ((V [0x9a3dd1f2d5b2d;0x470c621bd1e55;0x1307faee67bcb;0xff641b1ed567e;0xd8b032580a456;0x647fab7c68204;0x5920b435666eb;0x8ceed298fe19c;0xaed954361a370;0x6469d5fe083] [0xd8bf9038e9c9;0x922b2c041792d;0x7c9bc41edc3df;0x59142dff46e4a;0x29205c2554dd9;0x97b7713c87ebf;0x92948dae5e018;0x27e591f740319;0x6d0ce4b04c44b;0x5878f8db6c4]),[[0xe2153552fbce3;0x4392acf26731e;0x9c1aeaf839399;0x7ae7a7da0cd9;0x604198f847656;0x35de526278ec4;0x9e5bd77a60963;0xaebafb3ffd7ae;0x296bbd841b55b;0x7be282d72d4];[0x4505d6a07698;0xe7b0adff7cba;0x37a22e276eca8;0x1fa472fb1aab;0x8f12115e47f2f;0xe8aac487d42ec;0x6605fe7c81aaf;0x8839de1b00061;0x3ebac95a80d3b;0x150e7e34408];[0x0;0x9558cc2c3e39f;0xbd153d569fd5;0xc346128cdd86e;0xb7f7664206f57;0x8d6f6da4b5e13;0x5bd7e0bb89cc4;0x37177227e3cbb;0x58dfb04f8b91b;0xc3366b7eafb57;0x4fe464ad6ca];[0x1;0xda11f8dd287e8;0x4d2adb057ba9e;0x9d5089183d152;0xd42b45f9edebc;0x874842a1b5b2c;0x7c2eb2d9bd9aa;0xae4021f6f06d9;0xaaa2eede0e850;0xc2bae011ad4b3;0x150e45d3a38];[0x1;0xb7f7217e2aa39;0xc4827b7dddd01;0x88d182072f23a;0xf16ef56fd2bde;0xd80e6b3a2a34b;0xb09f6385f3488;0xf5fa5e3dcdcb0;0xb860bd3102f09;0xddcbc52e8cf0c;0x244cabc76bcf];[0x0;0x8f154a735be9f;0x4b001ab46c3fe;0xbe948a2d10653;0xa62b80d987570;0x4a9714759381e;0x1f8d164378f8;0x7ea65ddb504e9;0x927aa313daaf0;0xe2dbcd003a70a;0xf73af1d24ed0b]]);
 ((V [0x69ea71c2676e8;0xee890a12e2677;0x3d969f24df2a4;0x9fa8c9d0453a5;0xf05501a6b6e54;0x3777bfb426c1e;0x4e6502b2f7cf9;0x35c79e73b7a7e;0x85476b8810f17;0x38c70e249e0] [0xa629a5d753878;0x39296d4d37893;0xdc2de16d561ca;0x3cd591eb600e4;0x7fbcc4e2f882c;0xaba0d073d54e1;0x319966789d28d;0xd6d06272d7a6c;0xcbc740aab7d7;0x153bc82ef8]),[[0xf9d2d1ff9ea62;0x80a4bb9785fa9;0x7dff1fc341e49;0x944f162ac0ad0;0x24e5370ce61e2;0x57507bb956f93;0x158ef7d1bbbef;0x7328bcd9cf535;0xaae1aa8bb739c;0x4b80ef6b740];[0x8a2f530b651c0;0x6e378353d8004;0x96990f737e381;0x8850d9ae56f30;0x449be70ecfcd1;0x32d1d53f6c984;0xb424bfd6fb9fc;0x8106e76ae029;0xb2ddb78a4c215;0xb2fdf4c485];[0x0;0xd4497c8d4db27;0xadec458de1a04;0xdc02d2540c579;0xe267c7ccfb3e2;0x94d5fa0c3f827;0xd0e5302cc47f2;0xd98ce25fcaa8f;0xdb702c20604;0xca3bcd9fcbcde;0x3865f746d6a];[0x0;0x545b252dd565c;0x51c06a4e3b142;0x76097ecd6345e;0x4d7c2bc1040cd;0x30c650b4004d1;0x906ff474081bc;0x23bd4fb787595;0x80edee9cfd39b;0x5f502584e27b1;0x2540c4c1739];[0x1;0xe3e144f853b44;0x566ce5ceba4b4;0x8722e5a09ca6;0x354280cca184a;0x2d5d22cb6ad4;0xd47721448263;0x6f68266d4fd1;0x7f8051c51db83;0x42652be418a6b;0x1d6abd9ceda4];[0x0;0x5395a6fb1a198;0xb6de7c986ec02;0x232ae7e240cc;0x51f8ed45a98a0;0xa6e59f7218fc5;0x493ebcc7d3a5f;0x51302791ab2cc;0xcd3b11de29dbb;0x5afca4fdd0b59;0x96b383b116a24]]);
 ((V [0xa98cc62f9beea;0xf53a58fe82fbc;0x21a8beb43b110;0xd5e9aa4583d38;0x7493435d82ca9;0x31539d59f17ed;0x1faf80ff0d1d2;0xb8d399cd6abc0;0xd6d1a7af27d82;0x3e2a1bf0843] [0x1b217e4ad9ff2;0x5faa280e0628b;0xd8fbee1c5b11e;0x51d7ace601e4c;0x915e949c68454;0xfd1f11e49d55d;0x1ba65705a138b;0x4e016bc7eb347;0x2148ff94b841e;0x46ffec7f7ea]),[[0xee7902217c808;0xaea16e780e377;0xd29281d4da138;0xebd0b0c435246;0x61a9214400da5;0xafeea6fe49a1b;0x2a1ba7e3ac33f;0xab440437e8692;0x1109d4f5afec0;0x40ab1a9d288];[0x6fde226ace6a9;0x23651004956de;0x4209287373657;0x1f2c4b9a20363;0x1f50448da5d86;0x58c7df39e35ef;0x2f4e9411827b7;0xc482f29f6a119;0xb50cd0bf185a6;0x1493501e6d0];[0x1;0x2c1d9ff62ee40;0xae9d3a247fc52;0x530322a9faa1b;0x155144cd1ca0b;0xd79f1f8e262f3;0xf1a586ef19899;0xf4abca8c22f6f;0x6bd4836d2d4d5;0x3e8c01b06609a;0xff73e4ed46];[0x1;0x882968369cf80;0x152ec518a231e;0xedf34d3adf3b1;0xcb7a6b1585ff3;0xfac8780dd2e47;0xa8ec189494c2c;0xb558a4999d772;0x8677cf117de7d;0x48774b4151f17;0x7a1c97eaaa1];[0x1;0x8b45b765cdc40;0x7ebb8a641e2ef;0xc1f5b1de310f2;0x1af8135a53258;0xa2fb8ac6cfe63;0xcbc206f6c920c;0x61d72fc5faba1;0x7f2bf1713e3d0;0xa49304c105ad7;0x13ec4711d36a];[0x0;0xda0cd0336bf18;0xa7a0a2eef97cb;0xf21a4cbdf14d;0x75493d407c459;0xd87f10dc6d267;0x12ed303a20e27;0x8b50ff8450be9;0xe25344f999475;0xbb99aff4e1818;0x810380489030d]]);
 ((V [0x277b3125bf967;0xce28ce7e95ea0;0x6252880ff456d;0xba3153da22c43;0x3aac77c4d4516;0x9c3c592c422;0x7acfada6ca20a;0x1a885a41b59b1;0x4852617de7e79;0x3d642e297cb] [0xb279fa33053eb;0xe15924b8a58fc;0x958228658995;0x2c16f7b733563;0x46c2fa1f0a275;0x7a284a31071b6;0xa5f9c656b23ba;0xcc88609c6eea1;0xeaa9ab7848e2f;0x1fc2d016966]),[[0xfd0ead6969e98;0xb5471ec797469;0x2a64ddaf9d8f1;0x2defa5e538c29;0xee5ea2e3f45ff;0x89c1ec98684c8;0x51ed5c9977beb;0xd72b9e6f08f9b;0xd214f2ba988dd;0x5a246c1362b];[0x2f7f77c87c1cd;0x4dc3697d0729d;0xddfefbfb9ddd0;0xca515c6f0348e;0x1dc39126118ec;0x9f0906888adee;0xd722a63ad5e12;0x541feaf0516ee;0x1fea66e2b1963;0x4ec7758f8b6];[0x1;0xdbeb6c61ca5a4;0xb6d246fcfde4;0x6b43453ce58e3;0xaa0b56011c8b2;0xbc9dd0b595f06;0xade4783fce39b;0xd25861e8e3ea;0x554f4cf9b21c0;0x8779142db7c61;0x7f5e1233bab];[0x1;0xa71430bc14160;0xa1c18066f123a;0x9fd95b8c19091;0xfe385d8357388;0x5cf6f4cff467f;0x7c0d3e6053c3f;0xb1d499c167b23;0x6c50cfb471016;0x5c16805ef454c;0x174ac74ef91e];[0x1;0xdaf10f83fb640;0xe248deb6b0f4b;0x89881fd58135;0x823cada28777d;0x14524f712d0eb;0x17a03a23ed8e2;0x74d864ef86a3c;0x766231b7176d4;0xc83ed4511cb83;0x133f589bca15];[0x0;0xb62452c22ff50;0x8b3af69ab4d6f;0xed22f8893ff0f;0xa226067e16e9d;0xd21bcfa59d1d8;0x6f2928c41a54e;0x672f423d15f1e;0x97cbae19e936;0xe8b51cce93550;0xb3d6027d2ea2b]]);
 ((V [0xc28c78f122b12;0x2e2723584bf25;0xb4450c1bad77d;0x17b7a7c4411f9;0x913fd6c3af886;0x54caadf6fe644;0x8838d22e9575e;0x61130c7ca5721;0x358902817b188;0x6e625516134] [0xd21b991b9bdf0;0x46f2aac4cd4a3;0xc2be52d15f953;0xa7ac40f94fbe8;0x401e2d1e44607;0x3da3efbd63e45;0x34167908d3fde;0x2daae1efd672f;0x409ccaa5ff2d5;0x2b9dcf600f3]),[[0x89b49d7882d77;0x287d135d69001;0x98cb9afe33775;0xf31eb0185ce1d;0x985976e5c522e;0xca65a2de04a26;0xdbb3b676fef6e;0x4aad4d0ab139b;0xa9837a1ce1073;0x1f747e9475c];[0xc59965929340;0xc4c35eb0ff58a;0x8058176cf047a;0xa50eec98f925;0x4862d6d413a54;0x4c792b1aed396;0x74380bb10813e;0xb73656b7a446e;0x7b7317576986c;0x67063664323];[0x1;0xee790f072d9e1;0x8c75c71dbbb9e;0x24a87bd9d58de;0xa00a9e138fcb7;0x1bff5610ed821;0xdec67fac43808;0x36657f12e5b6b;0x5a95c5f5b92c2;0xaa65673d06688;0xb09aa260a81];[0x1;0xd4498b5071da;0x5a9298c1ca1a2;0xd02ba2f076aee;0x169a20d3890df;0xa8d2f7b1c26cb;0x98cf44a0db00c;0x8296a734d18cd;0x20b950f83189e;0xdacb67b71b1c8;0x25a8919a3dcd];[0x1;0x6373cb7fed1c1;0x31f6569b48c63;0x144410f4f8427;0x1c6bdd6b63854;0xfacb6fa52518e;0x3486f26f591b6;0x42777c84c41e7;0xcdd390037e8e0;0x830b22be1215c;0x1ca9a8b7c460];[0x0;0xc527b2d944a4;0x3c6b54dc468c8;0xfbf11a1cb16f;0x528b786c108f6;0x44316ce3c1eee;0x1b2b2a7083b16;0xbfce45ae3d34a;0xa4fed4f0231d2;0x2d559bc802cd0;0x3e65a6445f2b9]]);
 ((V [0x82c5910c4a30e;0x2bd5e4b2e2959;0x6c2ab90bfb4c4;0x6c7635e43d4f3;0xa352bb3030530;0x5d8c93c7502e8;0xaf5bf8901494a;0x74b5f3d971ec4;0x878e5e3db1278;0x7e4e76049ab] [0xf87813eb408b2;0x71fc600c2133;0x3372193f5557f;0xe0716da29f025;0xf6599d3cb0381;0x711ebaa8891a2;0x328b5f64d8488;0xa52418536f93d;0xfb14bf05be2b3;0x29ea6f68ce6]),[[0x7f3fbae430de3;0x5685769bd3c76;0xf7342cc46ef73;0xf89a7ee242772;0x13580cb741155;0xa17c180cf7f51;0x6eaeb865ae4d1;0xa6e9f2916684;0xe721ee7809294;0x4124f1524e9];[0xae357fdb250a7;0x3bc941c06340b;0x124ff53bc4244;0x2b4e506f2598b;0xdafa8978069f4;0xe8ab3897b7235;0xa1ac8fbd02133;0x7ad459c0ddabc;0x16417ca3611c2;0x75d1c8156af];[0x1;0xe097ba34c9f04;0x4297bbbb5b8bb;0x6cd4e31af9039;0xaabec8ca7b6bb;0x4692a402d0a17;0x1fd88a3c9eb21;0x976d69f45fc8f;0xb5f54e14876b3;0xa33741f19fd93;0x8c724262626];[0x1;0x465329952da0;0x27e2c9f6c0dd2;0xcfaa91a50f38e;0x16b4093d5e6b4;0xed833a4f6ceb4;0x811331741e2c3;0xeeb6be1c651a1;0x5e754f36c61a7;0x334e6bcb965a2;0x296853ca7f38];[0x1;0x8546b12cbf039;0x495d0ec64e68c;0xea282e170f316;0x4f598f5190752;0x4a208d2d55ea1;0x4b533518de32;0x304c1ec826419;0xef950eed4704;0x10a0b428ba751;0x294feb0a0656];[0x0;0x353f2d8b12b17;0x982e6259512eb;0xb84e915ac2895;0xf7a3768ef4416;0xc231423c84af1;0xb64c03d179f59;0x3df08bb4034ba;0x8f84aa1740c48;0xdd8ca9d5b0858;0x81d7dc9736994]]);
 ((V [0xbbfcbff21e4f3;0xc445ffabb7fe9;0xdd2cb7b6bbcb8;0x6f54772bf2efa;0x45ff9d3d88992;0xccc61bd83d5ee;0xa4ea5dd83d041;0xa3bb97211a098;0xdb66884d80;0x23bdc720963] [0xa1eda0161ee5d;0x14418a68aa355;0xb1551f4699ce6;0xa0dbba4d5d35b;0x26cbff6cd1ce9;0x7fe2742297bfe;0x4ed1818d557d5;0xf737a6c5d9f7;0x5266ad90c845;0x1781a853dc4]),[[0x34afb525e592;0x444eae7af0b2b;0xf19d950958d65;0xc08e03fba7074;0xa6d3953adda77;0x3ff452844405d;0x998e6469b9598;0xcaf60afb6939a;0xb5f309f69b8d9;0x122fb4194a9];[0x63917b64269aa;0x9624cc1fb54a7;0x279aed40fbdf9;0x31a4954936a8b;0x86d7f84adf502;0xf449c1f4df436;0x5ef5f09491916;0xcc69349239157;0x67773c9574df3;0x45c122c00d1];[0x1;0x6591fedef2e84;0xe6bf0be6d6fd4;0x9f43bfe97bb67;0xad12702b53fa;0x13b20f81e8492;0x8020ce778509c;0xc8144263b1e21;0x9517d233cca4e;0x4b2a11c75454c;0xedf9d0ec72];[0x1;0x263e155b9fa88;0x12a44bbfef106;0x69b318f0b325f;0x9baa50377788b;0x8de41ea6b209c;0x4e685ea8f514e;0x88590d88b28ad;0xd8e7a087a58ee;0x8ac598c46bbcb;0x1969da30d19b];[0x1;0xb83f284577904;0x9910f7809e750;0xc730737e1b008;0xb805aea98b506;0x36f04ccb0f757;0x24964d2416c28;0xc7f556b043f5a;0x73396d1928306;0xc419a7c0bc541;0x23e1fe9e53a4];[0x0;0xf6d3e0605448c;0xf6b223eaa90e4;0x7ad17af2f2ab2;0xd5357d3518020;0xc9850e0a4640;0xbc22f778103db;0x992f273ab88e1;0x8bca1891d503e;0x2f699f387ab1d;0x23fb9dd05acf5]]);
 ((V [0x4ca7f395cc699;0xc20e82362b5d2;0x7711ec66aed97;0x753957ead20ba;0xc7fbaf726a336;0x154238375c897;0x1838bdcb11c08;0xd29c8ffeb3048;0xe143fb499593;0x146d40a4171] [0xf1ceea8bd30bc;0xa97a03c8a283c;0xdf371b7ce9ed3;0xd2a6b970cecd2;0x856eb7b0b45de;0x2a1e6e08e1bc6;0x8d9e4baf0f829;0x9056bf86722a5;0x846cb1a34d352;0x53048d0cb0a]),[[0x2ae29c5627250;0x973084a7d0758;0x645e014969397;0x7b011f3bdea6f;0x3d537dcffbc70;0x5c4025dea7b03;0x84bf160f4d674;0xb8dc27c8228d3;0xa048401f3b789;0x13bb1fb56c7];[0x68507d54cad06;0x8f1aa72c3fad3;0xafcc403e30c82;0x434668201e86a;0x3b61a1f38196c;0xb35a1510c1515;0x391a6bd74a1ff;0xc781b925192c9;0xf6c51dcf1a3d5;0x2c9f70c5cd0];[0x1;0xb26a619897199;0x6a5ccc49553cc;0xbd0e6e25a1bb9;0x7e2865234f79d;0xfb958ca2ffd69;0x20a41e53cf44e;0x61012b3099c19;0x6394c44bd5df1;0x9b7202b02be3e;0x4f43ff4685f];[0x1;0x939aa6ac01c20;0x8ca7d2a52a8bb;0xe81b533638e9c;0xc91cefa2fdb64;0x2939fa6031f0e;0x3bed55d2fb0c3;0xbdedcb11bd51a;0xa12882b1a412f;0x19ccae61c9755;0x1047d6c2ca3e];[0x1;0x8f466d23b4900;0x32923528991e4;0x362038642fee2;0xdcb155d500356;0x49329439794a5;0x1c1665f778f5a;0xad9e1a0f15e6e;0x199c6fd32c9c2;0x9b668ef37405a;0xb4c6fed1fcb];[0x0;0xd2bda1ca25430;0xbca333423302;0x9fc895fb190e2;0x9ab60865e2f8a;0x53baafb44e2a4;0xc244d37bb3658;0xa74252d2103a6;0xb7a6df5859946;0xd0de5d008b360;0x26b74a773370d]]);
 ((V [0x75cc4ba8414db;0xaa98dc3561145;0xd0c7f0de94f5b;0x9e8c8e82686a9;0xfce842dbba38d;0x7bbbda1d172b1;0x85b6dcc1d2699;0x83da093da6c69;0x1586e1cf1332b;0x50e0f7f18a1] [0x6526169a7416d;0xced02e8aa8ef7;0x819572dd1da46;0xbe1c68c00086d;0x774ca95c632ce;0x486431fc104a4;0xf4fd6780abd19;0xcda208a89a319;0xb1e5bbeb9dc67;0x73fe74b1a8a]),[[0xcf875c7b61536;0x8fd00ab144ce5;0x8e86efd185e96;0x9e39400a67131;0x32045f2b41c89;0x4031cc014dae3;0xf8edbd25d98a4;0xa57e2b0f15348;0x3f3851b91c5ae;0x1defce7a4fc];[0x5506ae61e1c62;0xd6ba016fea6ef;0x439f368d9c43e;0x40668a0bea97;0x6d15b0edab403;0x5d4d7150d346c;0x72cb5f9a3a5dc;0x844c926bb4a57;0xdd059fec320db;0x24024eb5652];[0x1;0x993bb1f3059e1;0x2daf9a9401118;0x11824cbf6061d;0xa2138dec54299;0xa5f070a0f4694;0xa7f2fd03a6d1d;0xf85079b131c96;0x4924001a1d84f;0xa28231689fcfa;0x44c21bf74b0];[0x1;0x5fae45cb5ea50;0xef28f0daaceae;0xc76c687d1c678;0x6f5c17c73ee32;0xc32e1ac13863f;0xec072eee97fac;0xb31ca9e017bcd;0xa104089587f9b;0xd68f5d01a0124;0xb138b782957];[0x1;0x1a4a293d0724;0x48ea66a883dd3;0xdc306917f3765;0x126bf9b9acd2f;0xfec89d695d57f;0x4a5552624e16;0xa2917105df20f;0x1de84aee34bb8;0xd66337a6607a9;0xec76879da66];[0x0;0x8e97a5ec11062;0xf0ab7350ee271;0xfda83f7a0874d;0x2484858109748;0x44422ed5a4348;0x122eadf02000d;0x3a4f1d8e2361e;0xf5df7e04cccaa;0x20c3c8c85545b;0x3a61634681576]]);
 ((V [0x1199602fa37fd;0xc43d6efd2eace;0x929c3f05f6379;0x277353b639a9a;0x7ad98377298c4;0x6eba8a8b4b4d0;0xc4118e83b8118;0x734c570dab972;0xc20c0333450b;0x10b4b4cefc3] [0x23e01664f5f9d;0xf35d37db1e012;0x597f419607597;0xa16803c4aefb7;0x49e42e3236dc;0x2bab42a80a84f;0x85758c8eb0d9d;0x9b275a93c116b;0xa6b8e6cd997db;0x577c22a2f4a]),[[0xea1fd5ee965a7;0xc888635014d40;0xc84d1f87d128d;0x558783755ab86;0x3c37c75f4427b;0xb182375ab613a;0xcf3c1106f25f;0xd7cc6b20031fb;0xd67c37718df3d;0x2c81a5e4705];[0x7c0df831912a5;0x77757cbb27d49;0x4f8f763bcbdf3;0x861c5c7d373a9;0xf1e8ea98a477a;0x96c3bf0e4a340;0x3905ef94733d4;0x36d554d622ffe;0xab19b19a1e12f;0x6120034fba0];[0x1;0x4cc0515566349;0xe16a6661220f1;0xe6acacce4cca9;0xfee05715e1ea6;0x3854b134ade81;0x7215967296607;0x6f71f6abe0836;0xea0c755809b6d;0x47f519e2996d5;0x8f25454bd9d];[0x1;0x1a88e0b9e8bd6;0x71f9a8706008d;0x1b6e16344109;0xc7c6a4fa740cc;0x2f079723c6c16;0xeef9153556518;0xce560e2ad826e;0x4239c357c610f;0x23610099626da;0x1f6162a16f73];[0x1;0xeac7da1d10d61;0xdc3f5d39f1db0;0x6a4e75146ef87;0x17f166f9436b7;0xa58c4f5f595d8;0xcecda76c56f65;0xe3dd03f73b4e4;0xe4443fbe41cd2;0x3a8d37364de04;0x15573a405dbf];[0x0;0xdac77fe2f3af5;0xf3be0e184a884;0x638c7b1c2dcc0;0xc90654f01719d;0xa7704c159a45d;0x9047419e86a49;0x48558f846b706;0x1bec224940f5d;0x1ba4373b74dcd;0x57af2876f70fd]]);
 ((V [0x8e1e8e2a1ad75;0x25c177f6bb6c1;0x50aefdfe01d95;0x3a3bca67c7398;0x54ce0a9be0616;0x9eba0d261e95f;0x86106fb831172;0x493506329df7d;0xcb81a477534b7;0x6cf464cbf47] [0xdd6ece42ccf4f;0x826e225723cc5;0x3363fad27b1a0;0xebc65e92f6eca;0xeb218f601e729;0xd5564801552da;0xfdbf243042b81;0xfae88e6f8f689;0x21d8174912015;0x14272ec5181]),[[0xfa70f963aad6;0xbd9f6bea8d0e3;0x2b561d22094b9;0x6059be1f85906;0xddadbbf6fde99;0xfb65e366b4ee9;0xe32e8c7f36f8b;0xd0bc81c25f1e5;0xddcecddc8b04f;0x2ae1c16a349];[0x50c2eb17f2320;0xd56473bdfa077;0x430763377bcf2;0xe8e89f6046934;0xde48f9ad574dc;0x622475d8d2182;0xc66f39cc9f4fc;0xff7286ddf8384;0xa4ceb25690b78;0x5ec93a7a093];[0x1;0x2c698625b5cf9;0x9c4eaa11c2ee2;0xdb2c07ced2fbb;0x6cc22e722ba22;0x6877a72ae90a7;0x91ae99d0aa342;0xa85d7006fba8d;0x76de8efcfafa5;0xbac32b8a9d730;0xbb6448a2cdd];[0x1;0xf36837f3bb0bc;0xa8f4af227a416;0x1a0c23e58c551;0x56b472ffc761d;0x9b7f1c6cefe9e;0x73cc94ae197c3;0xe22b39c78c589;0x849706ba9a993;0x616c432fa022;0x1fe194f53fbf];[0x1;0x121795a3d12a4;0x71d94856155b9;0x53fe9b1932fb2;0xd697bc2cd3fc1;0xcecd3432a8034;0x114b791254124;0x53b43253f7212;0xb75e16cb6d3b0;0x145a1301ed909;0x10e5de7bb099];[0x0;0x9612273e68c26;0x89bccd3b402d6;0xa417f0ea5cf5e;0xa86dad8a75816;0x892abc7b4756b;0x94331cae646d8;0xc24546ef433bb;0xb184a9326d9c7;0x47190840bb409;0x54f83659ec68b]]);
 ((V [0x7ae79d9b14499;0x37a89cdb40035;0xb26e9230fc463;0x2187c40b1f49;0xceb0eec2a8785;0xff8082e01de7f;0x5e8efce3867f;0xb41dd7ba8fe93;0x4d44da71a4b04;0x6b834133b8d] [0x9381d33550477;0x1944477c2ac51;0xca20af9aa2d35;0x42ce0ab630ab5;0x560b690e04849;0x4b6a9ed006c87;0xcb8c781ad72f6;0x7aaa518a796f5;0xbafbdb10aad97;0x1743f31393b]),[[0xc46670e88db94;0x110df6c3e9f10;0xbba9f03c50a97;0x8135f97468753;0x2d9ad3dc4cbc0;0x4ea6d4dfab217;0x89780b6a03da8;0x8088a6f8eeb01;0xb561ac762a781;0x7273b5131f6];[0x4b82d49f04080;0x56e44761346cc;0x6fdd541174a36;0x726bc7e2da6e8;0x48111c1c7071d;0xfb65cf273d747;0x7ba4f487e02b6;0xb93951669d55b;0x25b7aef483ca3;0xff20a53dda];[0x0;0x4cac2b8ff4a97;0x216a62339a229;0x39d6c97ed38a0;0xc1b7912cba8ce;0xf6a34bc0b3cf2;0x3977ac4ff302a;0xb1155099c52c8;0x8a246875f0089;0x1ce328c72b8f2;0x3cda28110a4];[0x1;0xdead870160bd8;0x8f7d774d8813c;0x4c1597d6f929a;0x88631b935baeb;0xf29e77231b77;0xee0c3bb620535;0x2d8d0e177d4af;0xdd0cdc591a6dc;0xa8de8dfe4d2a6;0x3ba2033b3ef];[0x1;0xbbd6289dc0c90;0xb1e7544380ee0;0xc248e03082c19;0x7af44b2c6b266;0x827266517828e;0xb73074a7039fb;0x98ab1baa1b660;0x89204bb9f7ed6;0xcb0f15abc5b5;0x224819274d52];[0x0;0xd90f94d619b64;0xc625a1234eeaa;0xeb7ae0103d50c;0x857f4f282039e;0xbdcd3b185f1e;0x2f7dc836db12d;0x8e8e652caa6c1;0xec2255f75f700;0xe3a035e075076;0xe50451a90461d]]);
 ((V [0x258210a478586;0x3ac87786a16b;0x43a37b1d3a034;0x54412735849f5;0x235887d708d49;0x1a7afb81ca58;0x1123346658430;0x5b063fb76fd30;0xbd202a6c2bef;0x5c7066ddc86] [0xc7c62b717c7f9;0xf77fd3e2418c1;0x7269096ae0cf7;0x4c8864829fe1c;0x64b8801e5312;0x934862dda33c9;0x532c11a57aef9;0x7fd23d048090b;0x372f34c183677;0x31a08f26775]),[[0xf060bbf291192;0x5002871b649d2;0x8c01a75cbf012;0x2d9bf82ec15fc;0xf3d3c2100a299;0x41ef411adf140;0x2a20462b82a08;0x75f0a2314d713;0xbf990f655c109;0x2079685dad3];[0x4d3e5a385ef38;0x92d3c33c2bc5f;0x41bba276cfab9;0x2a7d985a76a4a;0x2aa1f6815345c;0x49b85531a9e5;0x547462999f21;0x7dd6894c806a7;0xaa898500fd6b6;0x390c918c7d0];[0x1;0x5c6b93fdb35e1;0xeccc2fbaae157;0xd1a28bdf70fd4;0xc5d104c876c73;0xd9118fc881285;0x9b01d6ae64af0;0x922db1bedb18f;0xd1ff6ac0abc82;0xc8dfdc1b05e57;0x17cb2b7ee9f];[0x1;0x406930996a3fc;0xddd19c6584f52;0xc27c672d8655f;0x3ee60194e3c0e;0x2fc28cc443c00;0x4acdeb70a18a;0x828df55143838;0x92ebafb0a997d;0x849e9095c6050;0x14a7d4d591aa];[0x1;0xf61a53d22a904;0x872ac95629116;0x54078db3fa8d9;0x607fdd0fa6262;0xecd2c17bea73e;0x489e4273e2b9;0x6f52af79b0582;0xb543297a248bc;0x2cb3a84de77a4;0x25eb0ab33f74];[0x0;0x88c0a9be2361c;0xf9a6cfa47f6c9;0x2ef34412b91d2;0xe3db6b7c6dfe7;0xf46a07c43cd55;0x32deece026813;0x635290c15e19f;0x5d3c9c21249a4;0xa2aa080781cb4;0x40855421f649e]]);
 ((V [0x774bc3cd3f2c8;0x45dd9b23061ab;0x753e69ae5a98f;0xe073a7e565745;0x29a469474beeb;0x145bdc294f9b2;0xf12b63e351b0f;0x712faf34f0fcf;0x758d0550bd3f9;0x10aecad6de5] [0x96cc802f27b3c;0x44189cbadf274;0x3c061fb95ee2f;0xd2072583a9796;0x49df19f62b55;0x4ea835bf5cdd6;0x406244800d94a;0x35862429f0e94;0x3a7ede60cb1f8;0x10961015864]),[[0xae0163e9fa79f;0xfbe3f9421d4d0;0xadfdfc6cf7840;0xe0c34c64b816e;0x7e79ac527ac6;0xe17a5aeb2eb7e;0xa7974dfa1220e;0xb5b73430243ae;0xd84480a737ab1;0x4a17b7cb218];[0x5373bb81f747;0x287b205762cb2;0x951a77252502;0xf0bfdeaca038c;0x1e285e6e96311;0x2849e26884be0;0xb7bb811b61213;0x9e8b188d172dc;0x48f9671f55843;0x535d90edbcd];[0x1;0x636db30e215e4;0x84e02a011c58b;0xc7bf7892f6b76;0x22149c5ad37a3;0xb583536121a22;0x1687ab6fa5a74;0xb4ce9a0d38b6f;0x178e0a101c17f;0x46e62597e0542;0x63f92b4852d];[0x1;0xc2d414417a56e;0xe33fa61519d1c;0x5583187083269;0xc825f17c64809;0x799d62efaa7af;0x2b85338724e17;0xd7afb4d0fc8b5;0x382b066c1f770;0x36d4cb8b38219;0x1babd5bd5e49];[0x1;0xad7a07b34a31;0x28fd31a8bfc1d;0xbb11def38abe2;0xbadb4ceb43430;0xd32497ddd98ba;0xa62968a2fc485;0xd415dab581ddc;0x46929c0d1ab7d;0xde00561e5e944;0x1683bc03cea7];[0x0;0xf97fbecfdecbd;0x3b5906f62cf77;0x2b4b5507bf2a6;0xd58eb3bfb4032;0x3a1ebd901696e;0x13fcc118fba3a;0x875b4c672b581;0xaf862781581ab;0xe5ba34714e946;0x9420f4075b4fe]]);
 ((V [0x2c1c850775699;0x761625c8ce825;0xaadd5106503e6;0x274855e4ba82e;0x29a8bb32fe046;0x87bc949ef4e98;0x13644599e7d55;0xd5c83da1fa183;0x313ffc1933588;0x199fc3fdb9b] [0x84feac0ba9103;0xe722a5d9135b9;0x51f285c72a88e;0x2b5ba25876ee3;0x925838ff9a475;0x6796975fda1b4;0x8f438f8c63759;0xc78921f62fa87;0x3aa82962155e0;0x618e587cda3]),[[0x2b9b9a03233c2;0x6b7a26adf8e05;0x14231a2133788;0x84df4e7d39600;0x9082f0d783c7d;0xfa6874027954;0xc74ad4cf8452e;0x6bb4d281deefd;0xc0bcc87a64b30;0x6bf00d520ac];[0xe1027d54157a8;0x924efa1d6df1e;0x6200c9bf82e50;0x96d09bb758464;0x2b5974f7c9d62;0x72f5f9f4642ea;0xcd24d0ef26b0f;0x779e2f3080dbf;0x145b53fbea241;0x228bc37001c];[0x1;0xe12bf5a455840;0x16690d572454d;0xf02813b0c29ec;0x4dfb6163a75e2;0x7219dce9fbc74;0xfab98b1ae2a4a;0x6e3caa2746222;0xf058363c2afbb;0xa1484d395aa4;0x42eae579925];[0x1;0x4163a33e27f0;0x766fd3f78eb89;0x84a2c52602d2f;0x2b92dfc488202;0xa998998ce925c;0xd83464cf54c61;0xb8cdaafc02794;0x8be841f34b6d7;0x1b908d31b44a1;0xb34d7b8bff0];[0x1;0x775a63599f4c4;0x5b817cf74a652;0x59774edd2e6ae;0x8903a34f4cb5b;0xcefacb3133c5f;0x6b1a788c7f867;0x2383bfe5820cc;0x601a0a35b40e1;0xb0b935cd134ef;0x1af59adfcda];[0x0;0xfce9cd9cfdc04;0x478d24ba5ad3c;0x9fa6be467634e;0x617b1a440608;0x584ac94f74234;0x28217d3b77a75;0x8e8203954172a;0x97aca330037ae;0xc61ff48744165;0xd76037ab3b094]]);
 ((V [0x43c95c1b33c2;0xad6633728a775;0xb7d91634a21c4;0x3e2c557a1e1ab;0xf6588725ce368;0xb9671a4ea4f54;0x895cbea4c6884;0xec2d083c45c26;0xe7dcb527e2382;0x20fe53baa39] [0xce36a84a6144f;0x22c68a4c23621;0x143163a6a2233;0xc8c1c24053ee9;0x6f0e26cd80f2d;0xd800918322621;0xdaba7de388d06;0xf5300d103eef7;0xc0c895237a5a8;0x56b53a20a9e]),[[0xb71ef8a79f5fb;0x46eae624bbacc;0x437044dd5d6f2;0xbd94c2123443d;0xaa789974911b1;0x8b060241c3535;0xd292d429cd71d;0xea485ae3d100a;0x5882c32247076;0x57021e07a8f];[0x2719ddf0f6d77;0xca8323909ec1b;0xb38fccfc2c55a;0x25780b2dc209b;0xf607309982bc;0xc0b337f413a4f;0x10d1581d38834;0x27533748fc978;0xef56facb26c06;0x50fbad07ece];[0x1;0xae027a0de79e1;0x731603d92ece1;0x19a4b780b3ffc;0x3ef262feeba9b;0xa1aa28a021f20;0x5aec8930a21e6;0xed6d2751d14c3;0xdc25b1c2f9ddc;0x1956afc1f7c3a;0x9cd62a16a6e];[0x1;0x745ae0abc8ec2;0xfc9e9b24d1d5a;0xcd2d8b2653b27;0xcd7ddee60e616;0x83069f95a718f;0x6d61a159fed7;0xd3385fd51c921;0x9ecf74c11bebc;0xc9282c960d62f;0x1614553acaa7];[0x1;0x88d9f3735e809;0x20ccb6109a6c9;0x3e24ba149cfde;0xced46bfcaa5a9;0x4b444c8759cfb;0x4e20c621b4eb2;0x64ec4cf8fb36a;0x96e7b9d5b8401;0x2a724e4080a5d;0x6d56d690cd1];[0x0;0xf10bcbcf7e97e;0xcc83e101092a6;0x7563cfb39903b;0xe0bf972a8ea59;0x19b8c3f4db202;0x7171047c4059c;0x9b4940424ae57;0x4bae4ebc2e7ff;0xe663c9840148d;0xace5b4a3374b3]]);
 ((V [0xd39e502e90ae7;0x8f91a47e6d2bc;0x454cad707461;0xf2b070b78e655;0x326f3af5e8e1a;0x7524de89e7abd;0x237cab83f8760;0xa2e6bceb26d13;0xb84763aefe017;0x5c780fe7da8] [0xf6782438a8168;0xfad44cb99fe7b;0xecc4677eefb24;0xabc3888dcf838;0x735565a4f84dc;0x800a7ae71bfbe;0x8a072e4cd43bc;0xcb07bd454447d;0x1585d0758f24;0x46aad638ec9]),[[0xe9563cbe6eaef;0x7861c7d54ec87;0xdf18bc57b9b40;0xe9e056ec426aa;0x5c6bd1078182d;0x33fcd762870;0xec2bf1321edf3;0xe3e3a2625a982;0xde32243c1db6d;0x24cee90a0fe];[0x57b85df1b3d52;0x814947dc7a1c7;0xf1ced7321409f;0x808eb699b653d;0x98186eeacc57b;0x16050da433401;0x25302b7ffc723;0x1d510a5c133b5;0x86a9cacf00a2e;0x7da41d0eb6f];[0x1;0x3b9ebdc7df4c4;0x89016c0cc8f2d;0xf47592d5fd613;0xad462d092459e;0x42cce00b799c5;0x204ce3a34232f;0x8a894bf5baa1b;0xa09ff529337a4;0x31cfa90c9eb79;0xf2c716eb98a];[0x1;0x373d883496262;0xf740c7412239d;0x92cc13231755f;0x244fc8153210;0x58381f62f83da;0xe3a470bc9149e;0xe883570a0238b;0x60004ca53554d;0x604a86bd2be40;0x2bffa6a99679];[0x1;0x6c673ed7c6a91;0xa0e626a6b337b;0x773bb7d6c3337;0xd282be1039d24;0xcfeca02992569;0x89cc3fb6cb51a;0x271744d674441;0xcda5c51b00e5b;0x147dad5617371;0x13253bd2cd9f];[0x0;0xba02e0990ce4a;0xb77e3f492aba6;0x954cc41b55da7;0xd2a9e4db52ebc;0xb800067aff7ca;0x76ef96fc4375d;0x4e4097ac53617;0x96ec59c4af4ad;0x105b36d5727f7;0x4876c67b56e91]]);
 ((V [0x38df99c7575ec;0xe8a1045c44fd4;0x9a2de38528237;0x423d722174d03;0x27fb8ebba35a0;0x3fd817de73b82;0x1edd6a6239ae8;0x4b3befa7c5cd0;0x4db5dc1e8daf1;0x2b0443c1129] [0xbf6e5be057924;0x6327181c0f050;0xa448919a7e425;0x2b29209d333e;0xe4fe00df40bf6;0xb4255f2da69d7;0x9bbc908d7402;0xbb054401fc273;0x207b5a9f82a95;0x15d1efd1380]),[[0xc146e07f3f98a;0xfee8f92c1ff32;0xcf0334e5ca268;0x9e8e8cb4b01d4;0x8c5e77b53af0a;0x78feb2beb09f9;0x293717732371d;0x475e1a7425341;0x8da1feee7bd6f;0x69a1b2b57a6];[0x9b6d96ef5bb78;0x899c1e64d3059;0x74cb72d7a559a;0xb870cfe1a9aa8;0xc096c43a14d34;0xa51bfb4eda2d9;0xa2b9b613a7732;0xd17e4415f9cf6;0x3cd65c85b3007;0x7358210270a];[0x1;0x3a05903e5ee1;0x22eab3e5b21de;0x89ed20fad67f6;0xe64b943e5dd98;0xa56cc2bafdc23;0x254151a043dd9;0x53e61acc8d81f;0x978fad6aebff8;0xb4b98468d6857;0xa3e33a89c26];[0x1;0x6bc878d94c220;0x799739830d56a;0xe5a9257e35f2b;0x53b5f37f8fb0e;0xdbe85887eb0bc;0x894ce5661bf53;0xa0cd63b41527a;0x3de32fcfad828;0x9b8dd7478e46e;0x23f6df382d26];[0x1;0xe34719311ee24;0xf3526a62d0968;0x3b546b0aef2e0;0xa19e6ca1636e9;0x76ffd17e54727;0x7e0563084c26f;0xaf4056ef9fc4b;0xfc8e23ab5a85;0xa15330f061c09;0x170bcb1ab487];[0x0;0xa202b55368b1c;0x32721c5c57537;0x667bf8a4b47f0;0xc615f5aaf06c4;0x7b6cdcd306734;0x58c3e61e8c3fd;0x92deb63c40f18;0x8ce6092519ed8;0x83857b7ac31cb;0xd31cdd07bfc0b]]);
 ((V [0x2874d74d7f435;0xfb4ddd2e48158;0xf7aa8b1a382af;0x10bd59727a19e;0x860d81ea1705b;0x58c9fcb6e87fc;0x3187d2245dbc3;0x2d8f784b9fabc;0x50db5d1040a5c;0x42b89a28d70] [0x17dc821423520;0x63cb18dc7739f;0x2f03d2a3d7531;0x50873d5300b82;0x49dd698bf94c2;0x13f16c5f472dc;0x78fcaa7c3fa88;0xff5dc2364fbcd;0x8d6bca80d6513;0x7bc0138c148]),[[0x5cf93bd83e2e;0xf8566e043373;0x9781fc6119738;0xbbef503434fa0;0xcff0b1ddc87fc;0xbae2b4a0d198d;0x11520a4657b65;0xb289bafd9f39d;0xda5959f4cfbfe;0x2441027146b];[0x6b9296de1019;0x22325aa822ffa;0x15c439ebacd5;0x5b855263f3d12;0xb2700e0646b3;0x18b9b758df1;0x586c06cecdccc;0xbf3bfcd5081bb;0x5924e459313dc;0x77ce5c680a6];[0x1;0x2c71b024d090;0x6bcf69aeb4a7a;0xb2c6070e33442;0xd0b5225517b45;0x89c59038b57f;0x33f443af001be;0x1ffe2af6f1972;0xa212638d8ba7;0xb53df5c35d86;0xe127db25fc6];[0x1;0x9335f39c0d1f0;0x33132291b0ee6;0x7efb666e3b3;0x60b92f1c9c936;0x288af19b9dba4;0xc6324bba895b2;0x2f835154a369;0x5178c6e606047;0xb298f5d0dd031;0x2c279e97dd01];[0x1;0xc0a965bd03204;0xfc54e78b8dbad;0xf420cac56011c;0xa1fcd8fe2773d;0xf0cef9caad65a;0x36e0c0ee0cf61;0x7eedc71f041be;0x2edbee4f5bc89;0xb14ad58fcd94f;0x1273d90f1c57];[0x0;0xd32bb7424746c;0x3f1164a337415;0x3541e502853d4;0x67ceebaef0608;0xb7bd68d71e237;0x92ff2cc7944a0;0x6d957bd065a8e;0xa0c92eece836b;0xa1fed92f8b0a9;0x477c6b1bef4d5]]);
 ((V [0x2be558aecbbb4;0x7a4c46bf4b0f8;0x87034a68ef04c;0xb7ffab2cd7b24;0xfd8cad4846844;0xe8265d0c5552a;0x84461195c57bd;0x31ee1c5b423ea;0x7b489ac578b56;0x42d3d8b50dd] [0xc8a3f920b2dc7;0x40f755ecce3ae;0xcee19c210d2d0;0x3d63c763dd413;0xf7a70e0a85936;0xe8f8ec635ab59;0x2cfae22249d35;0x557f4382d7305;0x6469e2c35c840;0x7c6a973e5c7]),[[0x6699323ce7eca;0x39858549372b4;0xfa1b20c145f33;0x9048d42996e0b;0xe4d6abaa4f634;0xc4c41e45164e0;0x5ae5f6457cfae;0x14c16c000de10;0xa5c5e1deaa15f;0x58d0246df7d];[0x36b196bef5400;0xdf7f861bdafd;0x43cff20eb700;0xb8852a1e47343;0xb3270fb4a86de;0xb457baca4baa2;0xf999856d42005;0xcb8b4161fb73b;0x63717138b65a5;0xb327ab7cbc];[0x0;0x8154609880717;0xd4310720f8cae;0x1ac931e0729a2;0x426b649bac5f0;0xcfb040fb51108;0x75be70fe7fe6a;0x6832b71652a86;0x7a328cd751669;0x548e8b88755d7;0xc6273c6754];[0x0;0x5f7ade41c5180;0xa9f12528d23d6;0xc37f047233574;0x17878bbbb809a;0x570760819e9e6;0xa2277187fdddf;0x1744c0d22f2c8;0x5f45f2ed7aeb9;0x933e0153ce5bf;0x688bb1420a3];[0x1;0xaa7605d559724;0xebdad1f53dab4;0x911fb97b101af;0x85496ed327c88;0xb65a572d0aea;0x34973e1d4295a;0x187c4d8a33634;0xdb7960f3ea310;0x3a1582df2f590;0x152ea957fd33];[0x0;0x57e32001d4ca0;0x582a47b3d6e69;0x361772f81c4f4;0xa2ef3ade804bb;0x4c26066630152;0x9e64d34ffd158;0x8af08d190ab7b;0x20e472c2c7f34;0xb80e4dbb69d3d;0xb008b0c37b000]]);
 ((V [0x53ace2b7d0ade;0x842a9e449a539;0x13dbade8366c9;0x1a62af95c4d24;0xe30d0f03d0c86;0x47d238ab9c75a;0x23d50777fb857;0xbb583b44761b5;0xb33241a94ccba;0x6dac9c23a48] [0x9449aeb67eb7e;0x54405c7268f5d;0xd7de707fd3dd0;0x7004511729eb9;0xf2c9030ee24ef;0xd6674244e618e;0xf117664e7b54f;0xcc4835110fa9d;0x9ad3ef31542d4;0x3104a3b38ba]),[[0x80e131441087e;0xe56ee7d5bc3a0;0x922f90d927b1c;0xe0253b6e7110c;0x6127c8576895d;0x3c3f0eab87ab2;0xd11010913b927;0x549438b89bde7;0xbb52168061564;0x179d2f304d4];[0xbe52123316c31;0x325302a98b915;0xc5a9413926df8;0xfe1f8a0dd660b;0xd3c7c8c7bd3b7;0xf62f53edc247e;0x73ce3d4a0cb82;0xc10e3e37afcb8;0xd2ab0fc251fd2;0x13e4771ca95];[0x1;0xc2e5125a4e590;0xc665558b86765;0xa80e8c81ebe77;0x311c4d5ebb4f5;0x9bb7428dd33e7;0x80f0acaabe899;0xbc3ac7674f295;0xec74d2b34e438;0x6313b9fd15024;0x4e51820b8a];[0x1;0x296fd8639d7a4;0x8ded48d20a47d;0xa3f34dc2bd7f6;0xd23e7168bc005;0x677350b11b023;0xe33d087a3b97f;0xbfafacb02eb25;0xbe729a62411bc;0x306f4f727cd60;0x4972eb1a5cb];[0x1;0xdfd137c89c3c4;0x66c3ccd68d942;0x37feefb12d9e1;0x9f6e42ec22ce4;0x1670448d41014;0x4e4bee5a3774d;0x9f68166a6465a;0xc500b2d53bfab;0xadaa0ceb8c40b;0x1e24d5d2050c];[0x0;0xaa948a8f5626a;0x87b8e933c9787;0x3187c6c486980;0x11e7597abf42e;0xaef9cc31e7972;0x781db912436fa;0xde1282d06538f;0x35059db4a0f4d;0x1554b04112d8f;0x2def35891dbcd]]);
 ((V [0xd553f6cf2f205;0x43fde2492c6f4;0x7c9e3a10a1215;0xe271641306af;0x462be308e37b7;0x45c239e4a4207;0x92d18bc24405c;0xf7ec2b11c08a0;0x53e92c165a80a;0x4679ef4fddf] [0x1113bb0011e4a;0xc736d0c4a0795;0x2b1a12ce8d804;0xc0a3fa3b00f83;0x9f5b5314e62c3;0x9c8748525d44d;0xa6d6faf5f5be3;0xe51e88ee315ce;0xf7d190d3f0b17;0x26bcbf24ef5]),[[0xb25a6f343fd70;0xb7ade27dae00a;0x6ad322867b11b;0xfbb50e2abd2a;0x14638c845a76a;0x858eca013b76d;0x6ddd63e0a87c4;0x97772bcb0f922;0xb598344ba9193;0x25cf6774d8d];[0x45c12c9fab0c8;0x913627fa3724f;0x3e80a886ba023;0x55bafb0024dc0;0xa3a38287d4880;0x1a1b7ead441c6;0x71f2d0fe15ed1;0xf698e46baa710;0xe786c7c8ecd1e;0x6d2a4a11e94];[0x1;0x66706e62fd644;0xa375275384bec;0x3b6a878c37630;0x8ae961b306377;0xfd89b625636b7;0x5d52efc28e8c6;0x1734d51ca018f;0xc8eb10d93d08c;0xebca5ee837ab2;0x7c5bb172c01];[0x1;0x50a380056d640;0xd047a4e19cc1;0xf44b6948e8ab6;0x70c94f237e535;0x7f4765a272e0c;0x84c7869db2644;0x3f5512d0e4dae;0x9b566439c89bb;0xbae76d953d40e;0x2720833893c6];[0x1;0xa26c0b5970100;0x7faeaeb73468a;0x23efb6ed223b1;0x70643d0e5b922;0x731ab21e66b74;0x4d0a9b86ec55e;0x1692db92f4f1;0x481b293d73c95;0xc9cd503c914e0;0x2387b174dcf2];[0x0;0x4e218502be080;0x269bc6871e96a;0x8c19d7fd940a6;0x84aac23906412;0x6505526302f64;0x1d256431b7c72;0x212d874ac623f;0x80479fa447bb8;0x6440b6344915d;0x4b20afb50cdec]]);
 ((V [0x4b051de222bc3;0xf3b983c86afcd;0xb9ad572f691cf;0x7ea26dc12c003;0xede670444dd67;0x1c4fb5e30f2e8;0xec4fd20c022d7;0x6c602eb1e053d;0x6fec3f39b931f;0x3022b3dcd1] [0xd1b3aef3d4622;0x972f66382aeb2;0xed591cc985dfb;0x2cf74c43a98e2;0xd15d5da49ab45;0x65dc843daf4f6;0xf6b8646945be7;0x3d71b6a47275c;0xe909c2dfa67bd;0x1d5bc9755ff]),[[0xd26a355af4fd7;0xa9792629d0315;0x1ddeac69e9250;0x550533dfdca0;0xd8b8a7cb1a88a;0x49a27a0279533;0x4e6482d58be24;0x10b4072ad182d;0xaf5a809efcfc4;0x51d5ff83a48];[0x96f2254d88439;0xe65c9a644528b;0x3860e8578b9b6;0x3483391a1695d;0x309eda37c33a8;0x3c2c0324f6c9c;0x4ab858ea4c64f;0x2bac0de35e49d;0x382bc6623bd6c;0x2f1a2699ac2];[0x1;0x2a54de75df809;0x4035f82f683bd;0x65b561a4567d;0xb11d347808b0c;0x8d6fd5d35738f;0x9ee7c35b33d00;0x3e98f4798b6b3;0xde3679bff311c;0x6b2a8aa02ad87;0x37667b4bcb1];[0x1;0x9e068559fb98c;0xff3178f01355c;0xb5870c532dd6f;0xe85c0b4d49fa;0xb319deefb7a92;0x206faf8c3bc98;0x60ad6b260e893;0x93ce814520124;0xd5d74dc93035f;0xe9147edb6b6];[0x1;0x1a9c6a84c7701;0xd6a18904e9059;0x26819bbb838d6;0x84909dde56d6f;0xc6acc1234b581;0x2afb97cb152e1;0xb474664655c84;0x20d50d6eb2e4f;0x46f73623c2971;0xeb99d692159];[0x0;0xf29f76a123049;0xc8ecee2add595;0xa3fa57de0ab0f;0xbdd2f6bf9696c;0xc79d38bae16e6;0x512953aa6ecbb;0x7b1c0bbaba74f;0xf70e207e2b19e;0x3a72dedbc1a7;0xa3a0c68ba5cc6]])]
 [[0xcfa116c0c1858;0x53c8f869bf1ef;0x85dc7c6442ee1;0x4b4e7b6304d8c;0x1b40c6b6e9855;0x7e672be543761;0x45fd62407e7fe;0x154b2f0e4f737;0x997c72d0e3673;0x67969a8a11];[0xa2eeb3527bed1;0x997da1bfd45eb;0xfc962d5219fb;0xd910e598fe2fc;0x86653adf049e3;0xb7399f31e8564;0x1b4ef4a07509e;0xa2afe396afb70;0x53214ac831bc3;0x5c14e4a50e5];[0x1;0x678d02a31b79;0x3df79483f71eb;0xe0405fcbff9be;0x1c416bd50c34b;0x2016bd844f930;0xa3e3f56abdc74;0xde77c2e153e2f;0x45719fb0f0d34;0x343ddfdc92927;0xb817af39ce8];[0x1;0xdb712e3cc3160;0x6b1d693b0c378;0x68b2635409d79;0xaf3e8301613bb;0x21a3723e4e751;0x78c6a8d61b91c;0x341be8a0b2ea6;0x1dd21273e733f;0x9c7c4794820a7;0x225850efa81b];[0x1;0x7c59d4adc1a40;0xe290e5acbf516;0x4b3831a46beee;0x67518bd04488c;0xae60a4d1027ca;0x9546a586412bc;0x4d599edd31ac6;0x990df3de25bad;0xec53de77189ce;0xd23057af998];[0x0;0x4448e1fd32c30;0xd670b540e57b3;0xe7e406bde89e3;0xd9a36c9586241;0xc9dfe58013bf;0x2c0eae0ddbb5f;0xe386d2d80bbb0;0x5c072ddccf80;0x75cbb447dbef0;0xc6d314160da5]].
Definition wit_512B_64_12 : colwit ipt wit := mk_colwit (V [0x1875b942c6448;0x5248f310926d3;0xc756d5473b2c9;0x67fc681d0a1ac;0x6fcfb714e218;0x6612c8797b12f;0x5b34d3b9e82b9;0x32db6759b8657;0xfd943735a6b41;0x49234f431b6] [0xf14640fe5a22a;0x718633d36fad5;0x88908f908c232;0x30f6ae16ee40b;0xca2af19c512a0;0xcf29f7ee52100;0xf27c00d54d934;0x8ca867190226d;0x300279699c27a;0x52717acd1b3])
 [[0x81ec7ee02b21f;0xc30f6933eb0ed;0xc8e2b217c1f3;0x96c2dbdbaeda4;0x57d08e126d4dc;0x7aa6ab3d3582d;0x72c241230db13;0x3bb109f773aac;0xa40caae795e08;0x44e84d6d035];[0x4f3cfb9c8a1c1;0x194b2521ec7c5;0x8cf862297ad0b;0x84f41f7f3ec8b;0x6fda2f222dbb7;0x2aed084a5520f;0xbda793d3f9262;0x161749897ead4;0xa4812a925816a;0x1a6fd9cc26];[0x0;0x3901d39fbbff0;0xa9670806e335f;0xaa52af1e8a34a;0xa50a36b2654d0;0xb370331af3eb7;0x49b723f138c76;0x8ee85311c10a3;0xcc00d4a74171d;0xa37d695acce9c;0x49a3a766f9d];[0x0;0x5ff16daf8f6aa;0x213a2be55ed;0xc85d84cd36e8f;0x7ae2e9429d526;0x498f90fd6ff15;0x2f7f79930ed76;0x70ba4a846a73;0xc426f750fce11;0x5aac16e202100;0x1f4807bef22];[0x1;0x82221a1a76531;0x203cd7b904ea1;0x563eaaeb66cd8;0x1c0ce704d7695;0xfa1fcb9b7dc35;0xb79c01a62bd81;0x35ccd0db295db;0x6862d0e1731f2;0x8b8272c5d6ed3;0x1fa25263e25f];[0x0;0xbb1129d7b4f3b;0xeba26a1f1bae2;0x295c4df64ea4a;0xa889fd8f49d52;0x41f65b2682486;0x6089a0eb64745;0x59c2e45ac49b3;0x744a3df5e5241;0x4bcf6a3734343;0x893227c980ac1]]
 [[[0xa72229feb07be;0x97c312c0f7cfe;0xa24913b88e165;0x5439682b46dec;0xf3116e6a8c0d;0x678631f0dd7b4;0xcd233d652a6d7;0x2eb4b5f0f57bc;0x6f36a9dbb4e37;0x10c0b9e6dc5];[0x1;0x2d4d9626b987a;0xe1d69fc111983;0x36d48c9eb5fb4;0xa170a53020386;0xea230b2850a5c;0xd1408bb598b73;0x94e79b98d7f2a;0x4e5d506335739;0x6eb02d1a925e8;0xdfc99335bbf7a;0x1];[0x1;0x4bf433234e6c4;0x42f7de2b47a4a;0xacf7949174e0;0xd0193994444e3;0x2389f0e63a06;0x5e9aba95df782;0xa71f808e030a3;0xef20167592eb4;0x3895d9d795b16;0x1664eead0bf8];[0x0;0x7bb363f7b868e;0xf5e6217f70a61;0xa4fae8258c1ac;0xf5a9d095623d9;0x1773dad11a6da;0x617eec6255714;0x9253ec278370b;0x6fe01e542afc1;0x32d838e089010;0x20c568e48e758]];
 [[0xfd19093125ddb;0x607de0a400fb;0x92198914f9d30;0xd07f1e1678f2f;0xe7369ede2aee2;0x8b8c0482d245d;0xc1dab51b2100c;0x8b91d4dbf2305;0xa8f70f534ad50;0x504e19e105a];[0x1;0xeaeeb816689a9;0xd686f2a4dfa8c;0x2abffdb8b4364;0xabb658abcfe5d;0x3deac9769a35a;0xd2e0b76af48e7;0x48a1f7dbb06ec;0x43f3824ff4aa3;0x27c59a6272f68;0x60033366638bb;0x1];[0x1;0x1492d04fae949;0x6baa8cffee41c;0xb20cd3554a468;0x36f4e3741366b;0x193335f2f0b10;0xd8e56cd6c8a28;0x77cfe9f4fd38f;0xc0beb33db364d;0x5640e5bcbdf78;0x7698a6abe03];[0x0;0xeaedafe38991;0x98af9a26a6b84;0x3833e6ce0a005;0x47f54571a7db1;0x3c871c2a0e144;0x45e64e3d87b2f;0x174ddc1e8978f;0x1dabab30a856c;0x347d2f38cf5;0xa0000f4778c78]];
 [[0xfe9496ead47bc;0xe0577f98cb800;0xf6dd57e3b090b;0xdcde4aa4755f4;0x89c0532acab52;0x7588eed6c03d0;0xcd0f36ccc660a;0x6a892ed7b2510;0x495257c181853;0x5701783b794];[0x1;0x4bc6074aae9c;0x88eb0093a5646;0x87ceb945628ac;0xef1924c72bce5;0x33b337e975881;0xb8450c1015cb2;0x1e680e9b8175c;0xa60eadd33566f;0x9ca5be80df033;0x52b89f135b180;0x1];[0x1;0xfc77e7d79c910;0x107f2f836ab82;0x25ba8bbeb7c77;0x20f092b099cf7;0xbf1df69adeaaa;0x7d50b507ff81c;0x38efe00e2bb75;0x52aa2b58784de;0x8ab86fbe23cd3;0x12ea9500d214];[0x0;0x7e8232e3cc04c;0x43558ca3d0595;0x242a765f28f84;0x8ad25e32ee72d;0xfa33690f22da5;0x241ecb5545b8b;0x5ccfdc3bb0885;0x7cb898633ecf2;0x406bface574e2;0xad2b81ed9e825]];
 [[0xe0d82c7b95d1;0x3e6d92a1b3999;0xc7c6ef4705724;0xee9a3e4de5abc;0xb643f92ead798;0x65bf1e8c4e99f;0x346052714d770;0x5da710269bddd;0x5c5662b1be608;0x6578b1ffc4d];[0x1;0xb03eb660f313d;0x926eef179d674;0x5fee32d609b30;0x395a07ada7a0c;0xd8055d74dfe45;0xa143951790d29;0xc3547da28cf21;0x8b3f0c98d62ff;0xde7f45bb0b135;0x35dfc48782db1;0x1];[0x1;0xb0d30c84d3c11;0xe035e577864a6;0x51087992770ea;0x1b1724d7d4ed5;0x9625147875879;0x791544f4e37b2;0x9dfc8aea9ae88;0xaba791128aa8b;0xa5248cee68766;0x1dbdb34f6fdb];[0x0;0x17ee3896e8647;0xd0b8ffee57ae5;0xb90f3b342b50;0xcb1f20018c5ad;0xa7806201757cc;0x70727660d139b;0xd39e9fd56cf57;0x53a437641ca3;0x5e5d0a49eaccc;0xcac20c98c77aa]];
 [[0x579c7ac63961e;0xe766df736c91c;0x528c998aa8039;0x63b23df70206b;0x45a01b9b1477a;0xc69dd72aeed99;0x209cbdde59d7e;0x6aa0c98e396d4;0x366be7a233a29;0x2729b745906];[0x1;0x8f2aa2dda62b2;0x7b92a8775f1a7;0xf1208f71b0b93;0xbaba6a3faca2f;0x7623572be6d0;0x316dccce9386a;0xd6f3a7e390eac;0x625b2497ff51d;0xabc2fbfc45b0;0xb3220c76294ae;0x1];[0x1;0x253af0c143944;0xdb528b191f820;0x51e154c94e948;0xf9a18a025c867;0xd2d9bd2d05fc4;0x3416bb7c586ce;0x6736560baf680;0x2b35957866dba;0x42b43969d0b89;0x1685ec105cc8];[0x0;0x9cf9c78a3ba68;0x4a46eccdf2316;0x5bba372460122;0xa76c9e4653c57;0x9d754d787b0e2;0x9bb70f76f7432;0x4ca2924fc43d9;0x61d23a2fd2ad0;0x9060540a940c7;0x4dc66822a572e]];
 [[0xc7d017c72f21c;0x7d29cb5f0cebf;0xbcba234d56857;0x28348c333d9a6;0xd11cc40a98643;0xbef99639071b4;0xcd08e70f7bd33;0xcb7eb03495138;0xc5afe8a1744c3;0x2a65cf6f4bc];[0x1;0xa922ab11f4b50;0x3f1903bd0f6d0;0xf4b484fdb0414;0x8ac6be1bda7de;0x9ca14703bf2a8;0x590dad6fc8703;0x8a2d6d1550e6c;0xfbe0b3d230802;0x7b10538946c4c;0xabdc2a2c5a79d;0x1];[0x1;0xcee085d105a10;0x9c50beaf57b99;0xf2ebf6c7c6604;0x5fb40accbac02;0xd61c0d8e5d2e;0xdf6c3bc1e359e;0xf75286f547d6b;0xbe75666f15447;0xf594532f5fd4d;0xc0aa4a266f2];[0x0;0x53f76e7405494;0x90223242a83d0;0x259271f3b7712;0x1e57a0eb0f424;0xce0c12b4704a5;0xe062c9f882e79;0xb5fd28a05b1d9;0x2013e706d4bc;0x1c93310853d80;0x534788bbbfce9]];
 [[0xebca6defe99de;0xdf360fced6867;0x1c6bd687d8d9a;0x39183bc6b393a;0xd9751abd5e577;0xb7497c6d50515;0xc7dc3d55ff68;0xb9508fccf78a9;0x9f6e52f518b5a;0x53a4d86b308];[0x1;0x392a319aa1d8c;0x13140fa3286d8;0x13bdd9d3fe118;0xb963c99b56af6;0x214a949907d31;0xa461e1c602cb4;0x32554f2ca0f8e;0x205d83f67c7b;0xbc735bd6b84ce;0x58f562533de9f;0x1];[0x1;0x6514cde69a44;0x820677d647232;0x698a21e841dee;0x461d9a111b863;0x34128946cd23f;0x44f9faf30e060;0x24732e64e308d;0xabe8725273625;0x6222f62e5962a;0xbb4bfadefef];[0x0;0x27c00bbf8c65c;0x8161c2c6b4d7e;0x450afb7804d70;0x8bb0e159bd08f;0x46b7a20d61df7;0x6bdfc9d0faf22;0x98d18d95d38c6;0x655e4df26278c;0xd65bb9111355f;0xa5fbceb1b0490]];
 [[0x7d43f61b3972;0xd37d33313e224;0x62c18374d5438;0x2564b970ac95d;0x2a679bdb57ee5;0xbc816320e80ff;0x4732f18f1222a;0x400d254de52e1;0x8a4189179bd10;0x28441966190];[0x1;0x1b731f5be56c2;0x131900961942e;0xc3fbeb04fa7e;0xfde93d9fb8a22;0x1258e0c269242;0x7ebeca1a623ce;0xe079b3867750a;0xeb1d8de67bacf;0xb703d3716d70;0xb03b3d3f7b401;0x1];[0x1;0x29439ba353084;0x3627bc8c3f7e1;0xb518e3d39a1;0x79b389aed58f5;0x580342cadb0fb;0x4c4a962089;0xc7b70d42cb699;0x770ddd1b2e925;0x826b257a2724a;0xfe568dc01c3];[0x0;0x3ba0d912b62ce;0xd70edeac61271;0x37986c852ece;0x2019729d8ecf0;0x23336ba6ea8a7;0x74f1ad5aa134b;0xabc014af24a62;0xea3147b74b9c8;0x4cedec6ee5c6d;0x4ff41bb8f6f89]];
 [[0x91045867b33f;0xf58715ab34e81;0x503bbabccc25;0x38d2b7eadc4cb;0xa371157a54631;0xdb5eeb2e420a1;0x3904ca7f85e30;0x68d07e1cc99e9;0xb73302a8c0670;0x719651a8567];[0x1;0x8506fd80350f5;0xb0d4afc68aca7;0xe2c8287d94e10;0x32aa4da6180d1;0x361bdd8453221;0x907d2a00c419;0x38a12fb03a442;0x625295aa13e0f;0xa5e0effa7925d;0x1dd0279b4b276;0x1];[0x1;0xe1ab11b9572f1;0xabf9f032f0a3d;0x5aa9f94914d47;0x9119b4c7ac3c3;0x453fe5818f3ed;0x555aa2051d348;0x15a9ff7cea5eb;0xf79f57a3037e;0x77962f7562099;0x79b7bd67010];[0x0;0x5fff1c0496540;0x6b57f5ff36538;0x902cca0760408;0x1763d5d395ed4;0x47871d53f7ecd;0xf76fc56532827;0x4799f2ba6a3d1;0x89ebacb6131bb;0xfb097706f7df1;0xe2d43b7e5502e]];
 [[0x97e490f34d27;0x36043b37ec030;0x64cfe330bdbbe;0x3786f948a6e14;0x6651565570668;0x45a41536b91f2;0x88bad9a7ffe6a;0xe0fc0e6c95e41;0x997e08f277e55;0x2c16a7a7724];[0x1;0x55cb2eb2463d4;0xba4b04f0d24b9;0xaec80c39af582;0xa14379579d959;0x85b2c4bb17b1a;0xc117821022c79;0x190c611d8cb93;0xf2275eca72a95;0x8bf3e33dde5ac;0xa8676132625b4;0x1];[0x1;0x3f6a736594661;0x21f61d70ad793;0x50c9efdde52a1;0x149fb8f81ab9c;0x105b5c0f7c3fa;0xce03d5cdb5f54;0x376897b6541c3;0x6e8cc134c5416;0x98ea052072fb9;0xbbe2f36a360];[0x0;0x4d62284cc3b53;0x4d16aca18dce3;0x1a98ea56327d;0xbc89f9bd1a153;0x3329081cdb375;0xff03ea87ce5b1;0xbf7907dd0cdd;0x94309c69b9467;0x2b9ac6dd28cca;0x56e3ae1196a22]];
 [[0x813f04330cfd9;0x8ce9e084deb63;0x2bf1636b40e6f;0x897123a928836;0xa0984f2500d16;0x4b9286d68a31f;0x55c48aa44e4e0;0x665fcfd76f947;0x1d5dff7714a2a;0x3df972f557d];[0x1;0x94c1e9dd4f458;0x36b6185fe4605;0x5d5836c489a3;0x993c5bff84e1f;0xa44b81c95a763;0xc87e1d3e50d1d;0x743f9a6e1397f;0x7b10abebccd12;0x759c2061af88;0x84b6f602793dd;0x1];[0x1;0x4036ec14bd061;0x4cb3f92f0545b;0x82e51d121d747;0xe3ad8ede821cc;0x50c2cac0a29a2;0xb181d7b3d1132;0x660c38c20aee7;0x9362e88264173;0x2902605407a8b;0x1786a90ecd8e];[0x0;0xe095327d11f64;0x62a048c6ee0f8;0xe0e5fa44ebdf6;0x291356dc04674;0xc41c0378e7393;0xadbb35a27479f;0x85d98b605e3d5;0xb91fb820911b8;0x73a9c1321f8b7;0x7af5b0557dec9]];
 [[0xe4d6faed3cc98;0x34c4c28214f2d;0xad5b939558fa6;0x2295ebde8deb9;0xb8ebfea124255;0x483f96c39e8a4;0xed146cf7db57b;0x8138d8f932a8;0xca3038873d458;0x49f4b1aabd4];[0x1;0x210a49a53878;0x57f9c322954d0;0xd1fe2ee78a8d7;0x585fd4e7cbb95;0x74a9e36e0de10;0x9c67caf6a78b3;0x305af6bf11c6b;0x917b0986de712;0xe2d12d9ce42ed;0x6d19e1fd76cf7;0x1];[0x1;0x44b0d76b85640;0x183a199073cba;0x918ad599a0955;0x227e6e9e8bc6;0xd377e58ee35c6;0xf2fd9432cb74e;0xf42777b886da4;0x6541b378a412f;0x53fb300604e5a;0x1f3becad1c45];[0x0;0xbd798a5e242a8;0xe4ce04bde3b42;0x7163f8143097d;0xe35ddbfa2bf9d;0x9d86c2e6fed43;0xfa07bb886184c;0xc9d46b9a225e9;0xe5af7a532abc;0x2dfee6ab1d566;0x93494da414369]];
 [[0xea08cf412d2c8;0x1171d43eff73f;0xc39a2157fb238;0x5965dcb4cb12a;0x9a4b4afc89835;0x311b79dd3011b;0xec4d421061df3;0x9e0720ca1db4d;0xc5f69b9c2c0ee;0x3b3b457454c];[0x1;0x8cb5385208a38;0xbec913e46b427;0x5aea4ae29c6d6;0x7a125fd96f056;0xa036530403e65;0xa54c0d4bd8903;0xc732bd93b34e;0x74025282a7981;0xab67da3cf572b;0x8a70f6260b7bf;0x1];[0x1;0x6e10711235840;0x1f78bbe7b682a;0xd190154ead5aa;0x4073660341520;0x6d4193528473;0x7abf33a82b47e;0xce517625642d0;0xe3a59c7bf88bd;0xba4a1ffaa629d;0x1b7dcd56a8c4];[0x0;0x99f5549e0b878;0x5cce474a7ad9e;0x476c688bee163;0xe7485733d8513;0x6a4537e11f30a;0x5b227727426d3;0xe675e56bbc75d;0xce6f89d26ac6;0x13aeb930a9d34;0x7614001a0acd3]];
 [[0x675a455339e46;0xe3195d504dd9;0x2fa60646d1c85;0xb42f964f8e6fb;0x69160bd3db5ca;0xfd2855130184f;0xa5b96f28b6a2;0xa9e9121c9a33b;0x2833556eee1a9;0x19d92619ee4];[0x1;0x885484fbff616;0xa2e92fe2469c4;0x36d8c393f780e;0x5475dde822a4f;0x475b18ffe4ba3;0x9c1fd9f107a9e;0x9b475c9288824;0xf07c0c46d2c4c;0x50176eeefdaf7;0xcdbc341a6b5cb;0x1];[0x1;0x395b36eddfee4;0x1789751def20c;0x36acd4242b039;0x41270fe00350;0x91c8b93fd46d6;0xa0dd4eab24a03;0x402a0080b7ec0;0x9bf01c1785841;0xaf9b05cd84a4b;0x1dcd3eaf4116];[0x0;0xe48c8c071776e;0x82b81eb21ca5;0xd97943f7ada53;0x3089efca68d22;0x4a21e7c7fbfdd;0xac8e3d2479e2b;0xa658d5b8800c1;0x209d4d36a829d;0x3ca8124c65b7d;0x336b4331da122]];
 [[0x6186badc6cd9a;0xe311b985e6c8c;0x8c54ca53a2bdd;0x1ba5ca8f2c78b;0xf8dff5fb8ad00;0x28c85ef3b34e7;0x699f9a3fc5929;0xf4b717b7c1532;0xb6cd772c2692;0x79a86c3a6a8];[0x1;0xb0a170c3cff72;0xb678c03f8cc27;0x1fe125d512719;0x7c9c218bb90a5;0x11662798c3d52;0x6210714c0820a;0x344b8fe31f62e;0x95f89da913299;0x8162edd165690;0xdb0867068a4b;0x1];[0x1;0x867af45976c64;0xa57dc45df39d9;0x2fdac619802cf;0xa71160a51596b;0xf5c78beda8699;0x88d9b5bde5b8d;0xc29fcb7347348;0x8db2ee6437eb2;0x34e0356a38b26;0xe35d7cd6b70];[0x0;0x8876363e0f76a;0x83b7ef5b5d63d;0xa01af42265e13;0x12790c0768922;0x2de859b2bce48;0x55d903e7ab277;0xb29f1cc873e1b;0x2a6352be9333d;0xbd3347f2289bb;0xf2f2563ea8580]]]
 (V [0x4a1af25f77ea2;0x20e38164f00de;0xa07a0e2f4fe95;0xc759342baf3fc;0x6a26666d6b092;0x6fa293c9e00ee;0x1e1ef0a711a87;0xb63f4a448d1f5;0x62f7975f6121d;0x285de6c6fa7] [0xd6d550bbe27ae;0x80fb9803de9d;0x491246ef7bb81;0x2608299151509;0x35f75f39bb209;0x246b52f068310;0x164df74976904;0x9c9878116abd5;0x83efd7b6eacd0;0xd08abf02ae]) [[0xfe4469be0d5f;0x3bce4b450180c;0xbf035684edcb5;0xe59baaf908911;0x4a54d18c57b24;0x8139be1578d72;0x8a7c640a98133;0xb7001d7b79d23;0x3d825e311b0f3;0x12f9fbfe878];[0x1;0x54e4a4ebc26af;0x95f76c4289e3f;0xec1f568e3d354;0x4de8e8ab5f3fc;0x82be6e880a29b;0x101957c6b0524;0x3f5a700afa2ee;0xdf1700ca7cf08;0xe4ee9513ca6cc;0xda457fbab52d7;0x1];[0x1;0xb201f10a6b6b1;0xd1f4ecf04b668;0x311c0762eb9eb;0xe5967bf8b78af;0x35a13c3f28ba9;0xfb541d3b7cba9;0x14a6755a17baa;0x9a10b017a5300;0x7098030dc7a69;0x118e00a207e6];[0x0;0x22f7f7dd39d8f;0xed6a2d213606e;0x85387a007af4;0xb1f8fc9251b26;0x1a4efb021d6d9;0x546f73018019f;0xea096fcaca6f7;0x5194d6d5e3260;0x52bf9e290e063;0x24f586f6ef631]]
 [((V [0xe2cbc04c72ba4;0x168f61e52730d;0xc956a8ef3562;0x31ddbe6e18380;0x10a426d57f7ab;0x7fed069fca7d9;0x9105573208d8b;0xe98564847c975;0x94e5259aa6716;0x2aa931a9066] [0x693fc944b9699;0x4d2eacfba19d1;0x3ae4984871bc4;0x370f854f120ff;0xab0b149305eaa;0x97b1dc9a639cf;0x14c8c7f36f97a;0x3de806ad71a28;0xf1cfa5372c84a;0x327d84f025f]),[[0x37633f82d67b3;0x6248cd643b4cc;0xd2640d6069d05;0x8af519d0ca5c8;0xe3336d5355795;0x718ed20f03c01;0xa443944d8e11f;0x4d12e31be21de;0x1bfff17eeb603;0x3069517991];[0x6cc97f462f0;0xa0e5758d4b6;0x6c45329501d1c;0x15d64b3c04ed6;0x35d82fe5988c6;0xfcbe1e9631d44;0x2ace43b9cb68;0x289b0df9945bb;0x79d08ed383067;0x18fa0080d99];[0x1;0xfecb0c0ba3c44;0xc5ee5bc769fac;0x98d23f79ab313;0x746daa464f2b1;0x3b85012a61baa;0xceac85da87245;0x96c8dde67a74f;0x1b688c5980459;0xd1f3f71e1b5a6;0x25390be25d6];[0x1;0x1b724d3bea14;0xb28ed7f835f1c;0xf24cff28433e0;0xa7ef343b06c53;0x7a8ae425bcf50;0x745209ca92cb8;0x8a296c2702c8e;0x21478c61e6f72;0x17ed600bb7121;0x953e43c8ba7];[0x1;0x56264ce917219;0x873c788d86b65;0x95577745e5aba;0xdb78cc295c8e8;0x7da5d52bdf255;0xcf59db01c3e2;0x1b6d609ee07d5;0x259c6ebae504a;0xf372989b852e3;0xf6b7af1a339];[0x0;0xf4c8288b986b9;0x67aa780372de9;0x483d3d4f2bb32;0xedf9e913d43d0;0x446973e20e40d;0x3c443a96deeb0;0x51f1fadcdfe1b;0x2e37200c2388e;0x1dca698066be4;0x5911680943a7]]);
 ((V [0xcec265876a9c;0xcd77cf52ae28b;0x8acf12bdadd2b;0x1552f558d4ba7;0xe7731be01eccd;0x90349a241a409;0xdc3a67738c3c2;0xb159936e69317;0x2d7c0cc2d1b5f;0x3fa69552cad] [0x2b0c0467d0c6c;0xeeb89b3af69bb;0xb3e4c4877f3c1;0xa1287a8f4933d;0x63de1b962e8e8;0xa1ad756ad0a5a;0x561b52e317a53;0x91a9502340c11;0x808ba22132f9c;0x400cdb43898]),[[0xd8734c08ae399;0x6b094a8c91879;0x1bd38ace014a3;0x8f3d230c692a5;0xa6e2923828e4d;0x38577e55511cd;0x263b4b5a0813;0xf0d9bc48819f3;0x3571f59a85dca;0x692a543163];[0x464350284e0a;0x3b8f3174fba20;0x448f9de0ea4a7;0xe041a2d341a64;0x4e7d9a89b7c85;0x2f258eab2d905;0xd8b2a1c88771f;0xf6b2a165bd473;0xa2ba9b166eb52;0x5214a9de33b];[0x1;0x9165e1bac0810;0x56ef66107db00;0xcf26b93b8973b;0x1e0a32ba4fe09;0x980f1d0ebae11;0x5474d16d0cf7;0xf4e6e16a6ba04;0x74fa9ce3f7bc;0x605bef82528f1;0x95f16b8045a];[0x1;0x38fd572ea5dc2;0xb285121a1721f;0xc4edecfed4a16;0xb5717b825c77c;0x5a728adf3b0a;0x89b571a7a961f;0x42dac534b0739;0xdec5ea5255bed;0x79773f147c8a;0x1e74c8606e75];[0x1;0xc3ae927f863e1;0xf8e40e0cb00e4;0xff2192aa0f45a;0x9aa90e4c50588;0x86ec47812f82;0xe441faea981a9;0x234cf0ab2a719;0xae138135e978a;0xc5b1bb0e1bfb7;0x1299b89c98ec];[0x0;0xb24d432075051;0x1e8487db7b023;0x5fa9273ba83dd;0x29327a737eae6;0xd645f2a7e4d8c;0xa3b340cdc7f4f;0x8255321d81144;0x46288219b4ffd;0xb552ab4633f60;0xc45b47e3cd83]]);
 ((V [0x6a3da6183f65a;0xdbfaaa118c39e;0x1cf71c91aeeb3;0x8998f24e8d9bf;0x2a4eadd351131;0x3f0276d3a640a;0x88bfb24ca9e6;0x67501ad777972;0x90a4999442782;0x61b1d337f20] [0x99d39790a03ec;0xc044406dd7304;0xd524dde418f1;0x4bed8de701815;0x494e2f4afa93d;0x9c7b0caff56fd;0xb57003d9cb99b;0xe804cc1bb331a;0x20deff0aec285;0x7e3fb0e97fd]),[[0xf60b1bb1e8fd6;0xffde5571728ea;0x4d2ea0f7579c1;0xc4ab9b32823e6;0x81a4ac06bf5e3;0x594fdac478707;0x11537b128776a;0x9df27a554d764;0x20a0b43088767;0x36c35c3c522];[0xf3410a1e2caea;0xad683aa6c935e;0xf1c99ff4260f8;0x6c129960c3663;0x655ac41cd5e2a;0x40525f85be9a4;0xc2c59df2e8d46;0x66308d92f51b4;0x2988441825595;0x79a2c78c2dc];[0x1;0x773d60c353610;0xcd50f2eac05dd;0x65979f6f0e1d9;0x6c4954418f55b;0xe5e4c649ccc59;0x25603fb328904;0x8c6775268824;0x1b5bef79df8f0;0xc9c0720229095;0xd39ebb4edee];[0x1;0x5483069877b90;0x9e87ae3c85b57;0x4bba3e510e2c8;0xfceb504584fd0;0x3e7f29e0b4451;0xe10c87f48af5a;0x64c74dfb92fd5;0xc1c8876840844;0xc926d1d74a82e;0x2a30250cd2b4];[0x1;0x41000adbd2ea4;0x205123f588d14;0xe00bff459ada7;0xfd404b6adc93d;0x4d68c433c4d73;0xd9dda9be57a40;0x338024d4e1d54;0xb7c07bb78c5e2;0xfa8e825500b70;0x1aa8ffbbcdfc];[0x0;0x382a4dcd7bf6a;0x617d87ac946a7;0x435ed0dd946c5;0x574aedfb97ab4;0x551d5582b098b;0xa1700b6b202e;0xe7688b066dc24;0xd4dc35b75d22e;0x36072084cc1f6;0x6c325208c16c4]]);
 ((V [0x76411ad82ae56;0x7673add64512;0xffe81ad9d3be5;0x65598bc0abdd5;0xef7a199adc875;0x72f3c5884e86a;0x6a4812295437b;0x74778588d0582;0xdc3fc573b056e;0x19fc05adbe1] [0xe58b4803cc088;0x4ae669bb718cf;0xec5d5c82fb494;0xa744b5eeb49a9;0xbed6f9018bfe1;0xff6d9e12107d6;0x299124fdf39ce;0x2a02e64479a27;0xda7db0a003a65;0x2e086f5f355]),[[0x40d66a243a5b1;0xe004cd189f8af;0xb557ca67ba147;0x9b74f025d3805;0x286c5089ef5ec;0x4719909eeeb24;0xfac8ae0ca552a;0xbdec332c1a768;0x35a585ae4af56;0x245ae97fd14];[0xe33a5838f5d22;0xd09073c95cd5b;0x72d6c9b0f071f;0xd534fd763ee9a;0xd710975cf92a3;0x3a8c85d98f4dd;0x95a8fa1dd435e;0xf92e98a3df216;0xe51173700bc6e;0x328f96fbf61];[0x1;0x8544e6e1d9364;0x6ec81d528afff;0xd0605e0aaf197;0x4c226e475c61f;0x58125aa3be905;0xcde2d69fc5ca4;0x79c3998b9e458;0xe19741233b59a;0x3032cd6d0a068;0x1a8eb2cb9e2];[0x1;0x917ee14b2e2d8;0x732e9c388162f;0xc9b98ce36ccca;0x87195f2c90c67;0x93c29a9f014ea;0x7b486f37a04b0;0x915a531ddf2b6;0xf824dfdc41a33;0x1fffec4226745;0xe7a66037a13];[0x1;0x535bdfb028fd1;0xada4ebb2def4;0x948850f99ce81;0xb354e57f47605;0xfcc9ce09f62a;0xfbb07c140c013;0x264c5bec94b0;0xe02559204a8e6;0x7b21a87772bf8;0x1b06bf45158f];[0x0;0x7cfc7806aef2d;0x67bc0dea98fc3;0xe53b24b626450;0x1efcb82df509;0x74970404d2cf3;0xba5641848c47e;0xb98a476089aa7;0xad5ecc6f7b139;0x363afb4be89e6;0x4795fbb904dd2]]);
 ((V [0x7274472ddea50;0x71c3803eb7eb5;0xef1743bb19107;0x57168335e905d;0x9b02076cae1fe;0xc4154517a9343;0x33da530f81600;0x60c71fa610e22;0x21fff01326d93;0x54a0a96128b] [0xdb17e50d1ca9f;0x81370da6ad330;0x9e933a8c4bf28;0xcafa6fd77f0dc;0x49551a35b9c94;0x73d52d4a2c84f;0x956427e447746;0x8519ce6a3fb01;0x4860142d43d15;0x2400bc23012]),[[0x4213984a18107;0xff4d1e519f522;0xbebaa3041fb77;0x7dc5a1de0ba0;0xc9aaa0a6f9857;0x38e763a811d07;0x33489b5d6f09d;0xc42674d0fdea8;0xb6fc8cc0f6439;0x6ec4f61df0b];[0x6250be70b52bf;0x5880e7554c82f;0x5cd57474081e1;0x742f474fb5a66;0x44fbd37484b05;0xf8698e4760c21;0x82e1f3d086cca;0x4f349d91dcfc6;0xf74fa2890fc4a;0x7ee4e96e892];[0x1;0xfe3cdd26e8ca4;0x57b118859ee64;0x9a9d9f7f1ade9;0xca5111a7ed97b;0xae9b08b5cce2c;0xf15c5c04e1d75;0x11b2c9f2f51e4;0x90a51a926c2a8;0xe3582b7519062;0xf883706ed7b];[0x1;0xfeeadd05b4870;0x1b1eccee89357;0x66dcd56336558;0xf134406d9dbef;0x7858862e080f9;0x54f938bd0b3ef;0xe38d23b46172;0x604fbcadc4d9c;0x17794bf2aa4ba;0x2a9b14e508ac];[0x1;0x1beefb46f14a1;0x49640f4d9ac4a;0xd61de3fd36a31;0xe5ba8162af53;0x2fd61881e808b;0x9d9695c82d945;0x63217e4d524ad;0xbb9ca1069ca82;0xccd769a4b2078;0xb155b3623f2];[0x0;0xc342c2ad1d07d;0x85814baee35d6;0x6926088d54c95;0x3a41f9bf05f9b;0xf1e4d5155a34;0x35387c4b273cc;0xcd34ba0641e95;0xaedfdc0d8c127;0xf793f87f15f10;0xdd21df216ffe0]]);
 ((V [0xea299433bf67a;0x23b333f498078;0x9e9b4e6489f0c;0x4999dea289634;0xe5d2c72ca3b89;0x5c4d497da3105;0xa38c54a99cd4;0xe07e915152989;0xf6f1104cd852d;0x54a11963377] [0x706f71360926e;0x42671a4af4080;0x2df139c6b24b0;0xe04c97f178ab5;0x2dbaf2c07a542;0x973d101e8ea3f;0xbe6bafc7fa776;0x2ccfa844660bd;0xa6b6cebb4c745;0x4e239453882]),[[0x7d86c163f0bc8;0xd6b26df9d3f03;0xe07a7ddc92687;0x21968b832bea4;0xd1b4ca5386a32;0x1c7419432f5c0;0x89033ccf1c6c2;0x2bf0a89db5b86;0x397b4fbfc385e;0x1222ea03e1c];[0x4e0684de84d34;0x212be2078bc6d;0xe0c9be6638e92;0x213d229afe14c;0x848360245a863;0x7f47779497f20;0xfaa87985c2a56;0xae774aca6c386;0x715b8cf836c2d;0x1a2e463be28];[0x0;0xd4a5fd5a9b700;0x1d6f5a682b1b9;0xecc31db4b5716;0x31a5633030f6d;0x51d5995080a50;0x8f48173c96921;0x5ccd31ff0bc77;0x624a4e08caa51;0x4351327747f0f;0x3971b80136];[0x1;0xcc92547dc370;0x78b58cccff1f5;0xfaa74fc1c7433;0x8fd6c683bfc43;0xd5e29a71f2893;0x2bf2f18693175;0x827e5a4a53b3d;0xa63c08e604a0c;0x6366be39212be;0x92e1cc74a55];[0x1;0xed36716a86840;0x29cfece9553b6;0xfc3b41bb9fe7a;0xac11e88a5b5cf;0xe3174a46b5b38;0x6942082000227;0x66bd948102439;0xa2ab27ce7636f;0x239f9495450c9;0x1f932fcf3fc6];[0x0;0xedc95fd6f3598;0xae4abb73f419f;0x6be1d925d1bff;0x886f7f6029fe6;0x40e4863349a2b;0x9fbad4fd7b0cf;0xe630999ff8ac1;0x2b78a3d0b023a;0xd287e9acb1fd9;0x2373ae40fb7ee]]);
 ((V [0x1f6ed41dafcfc;0x6b7f86900f4a;0x8a127ca4fd7d8;0xa9416759aa367;0x540adc97f6e34;0x69129e87156e4;0x11aa31d0b0cbc;0xc8870b805375d;0x417e71082ecf8;0x5ab6113eda3] [0x9f327915317ec;0x9681b5c267835;0xa26b456471502;0x4babbe60eaacf;0xfdbc61b6eba96;0xd9530b55881ae;0xbe6563a2c8041;0xa65635d2a06db;0xc7d8fe01a0086;0x42b6d9e0a7]),[[0x825af89facb95;0xd3337cb22e7ad;0xc3acf50e79cf2;0xa7545f099ac1b;0xa5f8e1411b878;0x3b87b48165caf;0xec8993eb7b62f;0x6d6fffd2dbf78;0x5141da052a0f4;0x1222fc4d0cb];[0x799250c9cade1;0x4f83176400a35;0xc9dde6517fe3a;0xc6041b99697da;0xc697d314e198c;0xc0939fce49ae4;0xc27e68580d76e;0x1fa4468493cf4;0x4c4b4aa352c84;0x6e068a3da0e];[0x1;0x19725289945e4;0x82652ef5bb725;0xc4f1213afc4bd;0x8d6ce6ae00215;0xb7574823783b6;0x281b28b4cfd8c;0xb8876030eb20;0xe5041460b85eb;0x19c79deba0eb3;0xa418d867265];[0x1;0x8068ed0d9f94c;0x3a1a88f2be680;0xde569154010bd;0x3584fbebcdf26;0xf688b3d03d00a;0x48d68da99fcd0;0x9d5b7439fbb30;0x95d3edb199052;0x539d6ff14aa72;0x27e0284c9505];[0x1;0xe538073f00ea9;0x6c20bda0b67c;0x1a863b5fb50c8;0x4238e9cfbd752;0x4ce51195a8ab8;0x5243296801313;0x3e214649c39a8;0x20387303c906c;0x4adcce513b6a4;0x2055ea784ec9];[0x0;0x3f681e6d5999f;0x4e92cf5bbc8e1;0x4463938c11bcb;0x2b9bd67666143;0x7db62227da894;0xfb8e30c710f49;0xc4cb7832711;0x4efba83b270c0;0x6c95e6b75c43e;0x23b2a0f619a72]]);
 ((V [0xcaa2ba77ce809;0xb6b75b1cd7ace;0x862507b21c25a;0x80ee3252feba5;0x42c453e475108;0x3e749d825b7a1;0xa5a08b2eb077;0x54488669df2bb;0x50be2abd83838;0x7afe8bc655] [0x4d011c0e2cedb;0x9cde034ec072a;0xcde0e02ce9070;0xf13008ce7e33d;0xed4bc180deb03;0xe192e195e9d46;0x88a20cadb8c55;0x485e2e72aad5f;0xa7e055acd31f7;0x7ebb8fe7a7b]),[[0x3328329747874;0xcda7071658849;0x9c015d0e1e290;0xb11b471d08bfa;0xfb21d0af7141b;0xf8d9b94d1861;0x64e970779d07e;0x21919aa0b96a5;0xaa19beb9a65f3;0xb6304e362];[0xc998d421931f0;0xe6bf70b80407;0x57f8f9ac2e806;0x171ac9cccf6cb;0x56b3f42a7e331;0x4d5a0a8029125;0xb6ea27e3f7773;0xb339c0a0a16;0xda3b9fa15b650;0x7bec86da9a0];[0x1;0x2f9da332daf10;0x940e237ba76e;0xa616e9051e2e3;0xde21e1f19f199;0xde78276cc8486;0x55f9ae9cdc654;0xf34ffe10a57ef;0xfdb49869580da;0x2b0e05f124c36;0xb790027bc43];[0x1;0x684c05a3cdfe0;0x1b38f15c4e802;0x8669e0a0cdde8;0xb4d981fd2e2ca;0x3f3f1184219b1;0x4c7998745844;0x300fc29c5a2c2;0x1579d495b2959;0x87857f49f8e17;0x2e77f4a7a383];[0x1;0x45518b2a68390;0xd5b90f1039611;0xe65e9712f0a06;0xd0094dd357a8f;0x45c627c7f7345;0xdea7e0b38fd10;0xc7b96afcc0ac7;0x857b4d5075c14;0x595bbf24037f8;0x17a371322c2d];[0x0;0xab8651b9b218;0xb5023047e14c5;0xd8b780f19f2b7;0x8e95099e0cc91;0xe4edb023fe8de;0xbde85d8905986;0xb4e14eeca4e95;0x72e4c9852d640;0x1eaafd29b0d85;0x67befdc5ca9]]);
 ((V [0xdc0c2ee8ca6f7;0x51fe4eaaa2db9;0x2f4f24f9f7a5;0x9293aba2b9b19;0x58b0c0625d215;0x61b585df82a76;0x1d9259195c639;0xcb5da5f2552c3;0x642953705112c;0x74de7d1309b] [0x261a39edfdefb;0x64447e7bfd850;0xc5511a5132836;0xbdf30f9c7c334;0xb57b75f38d2d2;0x5c54415b3b874;0xc158ec49b476e;0x9b156bae6a28d;0xfdb27e73408e1;0x427a565bac6]),[[0x40cff4098eae;0x2814ee55743f0;0xe9ad46ffd4dc0;0x3fb3b55e29444;0xe7f60356288ef;0x43930f66f2da3;0xc901fe1d18728;0x6b57e1406b359;0xca1ee51b7101f;0x1ffc375a40b];[0x31ef6de625ed9;0xda421753e4349;0xf092086a18ce9;0xdda8810d195f6;0x1927c5e95fea7;0xba24509f299e7;0xcad618884a160;0x514a5fc42aef7;0x170dcffb9028d;0x5857a0aaf36];[0x1;0x208fc13f464c1;0x8af164085e543;0x4ccae27eb2195;0x9054085173164;0x4c1b94343bb71;0xa5e69e2f377fd;0x947a7edb79e23;0xa70d08b247f59;0xc7b426fb773ae;0xb0391221415];[0x1;0x82868d490d874;0x9df9dc2358ea9;0x4d47712d3c372;0x51b7c49fb465f;0x940b943c0a9ab;0x759e5f760130c;0x9a1b0d9e2cbf9;0x286405c7164e8;0x75864ed2e55f9;0x1d2b77a2af74];[0x1;0xc45481de98004;0xc8fcc2f8a414c;0x7b8060bb94002;0xf5623bb2481c;0x1aea996ed8042;0x2e241e6f9e58f;0x42376d2ab5d6d;0x2e3c22d42b2a0;0x6a042ce4a5955;0x1007e814de61];[0x0;0x1143f99653e32;0xb2c65d5e382f9;0xd12a0b8da03b2;0x41e203890f658;0xcfa6ee214c5b7;0x3c50a19e30f05;0xc8cb58bf96a8a;0xcea7bb3d706c6;0x2e951e46c58e1;0x3e7ab6b47d0b9]]);
 ((V [0x273539292139a;0x1171ae4969eda;0x3f52fa0d805df;0xe1619e417e954;0x304fd6b8c1de6;0x13950d687ed7f;0xd7642a2553edc;0xfeb2752f7b9a;0xcc7eada45857;0x5ccbdd4e8fc] [0x2da42925efd3b;0x23d084effcdb2;0x5191962a39e87;0xb550c9b257fdd;0xfb1003e60a0bf;0xc505233f862f8;0x53c6cb27b6bb;0xd293a2e2a1f34;0xa0f3f87b4d819;0x674f11dd30a]),[[0x77a748f6c9d7c;0x23813d40cab0d;0xfdcb42eac38a7;0x98875dc1e2f31;0x41ce8a7191fa8;0x994a76a5826a6;0xcc9fec7e5c873;0xac94e8c8d3f97;0x813461ceeb3db;0x674ecf1d4c1];[0xa6a554bda37ca;0x6fc1c631002e3;0xff480caeed63d;0xef97a636340b0;0x393ca187bc6f1;0x67fa3475a9a1;0x30f70cfddc7c0;0x4be68c25ab8a2;0x5c13e3ad2dd21;0x541a9d9f703];[0x1;0x6a2dd345536c1;0x330207b28c91c;0x5ec291ce7efa2;0x256eaa86c8a2c;0x38f1be3f65a03;0xeb8aa98e33332;0x18eeafba0eddb;0x22119caaa70e2;0x47ca2f71d8e9;0x3d8075d20a9];[0x1;0x3bdb43e248aa8;0x4c6c5c31a7b64;0x16af3c170a3e6;0x118ce1d9e79c1;0xac903a38e78b6;0x7ff12815053c4;0xd2e1eec4d9f37;0xd5dc7eb177505;0xa6eb7c00ea9fd;0x18d50f285ba3];[0x1;0x5a9ac0e542b10;0xad75f4e66dafa;0x2b10571b29169;0xdc647c513d131;0x31e08c2055cc5;0x74071ef3a62f4;0x53442821cf1ec;0xe661a27dad839;0xe5e235cdd6c3c;0x239b0a910650];[0x0;0x457487e343a30;0x49c8437c3184d;0x5bf68025c74e3;0xb26ddc20b55d6;0xc1fbf5a202da;0xc8e6ef6f7940c;0x96918ed9dc900;0x344af613741ea;0x27045bf98548;0xcdc4c80820d8d]]);
 ((V [0x8bb812079cce6;0x3a0f798d16743;0x64fb10e40a490;0x921107104f663;0x3014ed00d0723;0xbfc83d67ac67c;0x5257388a4de61;0x208d629df8cba;0xb76a9d41f05a7;0x6f0d595603] [0x55e769cc0d885;0x350e78ad02712;0xd4ada917ccbb3;0x8e87e6adecfcc;0xb74b1dcc3052e;0xce18f1f9071fd;0x4025cac93695a;0xfcedaea4497f5;0x2a08e69b09796;0x53dee6e5e95]),[[0x5f4638855ed8a;0x7722d01818516;0x4b304d7b8e209;0xb4cf0cfe273c4;0xb4fe5fa21335e;0xae6f56d83252c;0xba782d57abd41;0x61c00c1675649;0x10df845d7685a;0x35bf469298f];[0x764d140e4cca0;0x3084ad68074c;0x36ff3a6f7b159;0x54a28ff674f30;0x488f98b4a5899;0xad071a925b0fb;0x67db3bb8c8691;0xfe15a83de5a79;0xbf56816e2118f;0x1864231cca5];[0x0;0xb06f37a47db9c;0x680268d8f58ba;0xc5d63b0fa73be;0x17c30074079ee;0x69e745be0f985;0xad38bdab15a98;0x7221285b22d94;0x4eedec45cbcb9;0xeab4c24377676;0x127e0c98cdb];[0x1;0xde1f57d9e11dc;0x1b07a8ecca8f3;0x7ec4e3b6b5f1d;0xb4fb8c3e7f691;0xd46942ef937d4;0xe495731af7b65;0xbac6f0f61f45a;0xfb004719a5793;0x21bbffb6f206d;0x3b9695fd22f];[0x1;0x7bef92b4bfe24;0x9df69f18c99c2;0x5638d72b71267;0x3e04dc5a4f439;0x72ebc63ee65e6;0xff06a739eefca;0xe5fdd7a1e7b41;0xa42cf8df2699;0x91129d01ae97d;0x16a7f9c1ed46];[0x0;0xf0b4228d7c502;0x37d51d80c16f;0x1bbca2c7bdc5e;0x76c5c85faa3f5;0x4e4c306dc7a02;0x4fad24643f3b4;0x8a4ebf3ae30fd;0xe0664c27f3426;0x99b8e9fab774e;0x6a61fd779c97b]]);
 ((V [0xd54e7bc9e2c51;0xc3438e43125a3;0x7a9dacb04dc70;0x63832475c0924;0xb65e70bd292cf;0xf8fb45519f7b6;0x2a6eadf5ce17b;0xa44485493060e;0x841f410e8cc17;0x6dba903bcf5] [0x373f92c5ace6c;0x698f5f67e476f;0x5baa031fba7f7;0xa2dcd1f2bbc82;0xa1e3b61dc870b;0x5e8d12a0ecebd;0x106c3f806d749;0xab6d38fcb403f;0xce48d75641b27;0x7e59058120a]),[[0x789704c31f895;0x6d05bdd2e4c82;0x67e45ffc337c2;0xcaf66a3431827;0xf2c0aed6ffd02;0xd7672435dbc05;0x3f8a51dbcb634;0xa13a960f5c388;0xe7e9503bb218f;0x7fdb4c7276a];[0xef1b442651586;0x3b8e7ca66f630;0x40f8894fe62f4;0xaf8f1799b8b;0x63af09016ee4c;0x13878556c70f3;0x402694b71a2a3;0x3a707226eafa3;0x6671e677d76bd;0x6ca948f5d87];[0x1;0xa9a14d241ea64;0xa4204ff8ed5a7;0xfd78954a0b0d7;0xd79efcdb9fe9f;0x83ec82e9a0399;0x99e609e2ac6b5;0xb382c8d30787c;0xef5019ee46190;0xa8987ac85c9a5;0xd8f238c35b5];[0x1;0xdacc5197388b2;0x29d698b80ddaf;0xe2ca910f2aaf6;0x293b2d0eb8b08;0xa3cafd842e9f8;0x591f52a2a92dd;0xcddc02ff82add;0x83e38606f6a2c;0x81926ec6106c9;0x1e46a00a60a4];[0x1;0x5cba8feae50a9;0xb0f64ea19f786;0xe25252ed023af;0xd002489fc79a7;0x2e57eb0cf3414;0x230435d105f21;0xed5705de53821;0xb0f310066037f;0x5aafb8dd07ebb;0x7781d36236c];[0x0;0x5187045b689ec;0x3a7a5786f4a17;0x3a3ab330aaa97;0xc3b82ab9214c2;0x98b34a09643a7;0x494e9d8757ed;0xee61bc3442fd1;0x45aab5ccc5cae;0xcb47cdebd34d;0xfe2b5816d792e]]);
 ((V [0x9b33e3c17b663;0x25dffa67b000d;0x508c7f0885d35;0x4c7f1527c48a3;0xaf0fee66d12b3;0x59cf652f79213;0x65f450e492a2a;0xfe353c47e839;0x4e406c6584649;0x2cdbe94c7b9] [0xee66230523273;0xd05c18d759968;0xa61f9e56c7c38;0x122b932ed432f;0xa8aaefd97e09;0x4b7bac0048ac5;0xe6a50212e23db;0x2d25bb3dbafa6;0xb825e65b2ac85;0x69b4dddfa49]),[[0x64a158d2211ba;0x9e89e6a81dd36;0x27cc0f9da5a3a;0x5cdb8025481b1;0x50790be008e8d;0x622ed8969af1a;0xacd841f96ff35;0x3309693b6a02f;0x1b08dd7967d0d;0x7f52163f306];[0xc0cfb9efe0acc;0xcf1c1752a84b;0xf73f4428c39ec;0x99209178d9cb6;0x92b53be5cdeb;0xfa08ca094f8d0;0x7f549362ff818;0xa912d9a43cdc9;0x7b84f18404984;0x46d9a47346f];[0x1;0xb6cc8a6bde911;0x9b0851d5081c1;0xe5cc8d1c00cd;0x3ba6b360df4cc;0x5ab8cef88ec96;0x2b3a2ab0c1187;0x34e201e821f0e;0x4f965afcdab29;0x3d951ccc14da8;0x2fa27b54e07];[0x1;0x494393452e5f0;0x310cd34cc21e8;0xb05b282a940cb;0xb8509e8a871a3;0xbf6775a5fd23d;0x50f7db34075f0;0x8b28ff7dd1f2f;0xedb294919d28b;0xbf0db69787d8d;0xadbf25cd067];[0x1;0xbfdb97b25bee4;0x7f1423d3a3f01;0xd8689540bbbaa;0x51a02f22b6716;0xa2e0726669d;0xa4e51b4151294;0x34762b75e5c62;0x6756bd57e1c88;0x52086dba4c745;0x191fcfabe4bb];[0x0;0x8ddb10673f58e;0xf213f8e2a563e;0x82c9f8e1781ed;0x632d7afaa5942;0x4c3d6db72d7ca;0x2c5e5f95f50be;0xa23dcd4391161;0x9d33bc1d33932;0xbcbbe018529d4;0xfd93e951691a6]]);
 ((V [0xd0edac9c436da;0xe69995dd0aa08;0x7446d35d269e1;0x10f67ee8aa9a6;0xd00d20f4691ae;0x9b0ddb225599;0x669cdccc870b3;0x3df362fabd466;0xbfe6a166e9a3e;0x530470afdae] [0xbb5dcfaa425e;0x851914b3a9067;0xf296f6ee39d51;0x8fb468853bdb5;0x654fd560d96da;0x845ecb69d3ed6;0x5223848975026;0xc0b3876d968b6;0xe86211b4c4bb7;0x1c5562f21b1]),[[0x3fe53e2fceb0c;0x3251eee994f76;0x778c8283e1b7d;0xb839df2b4f095;0xb136abba61e1b;0x4dcfb3fa1f2b6;0x9f21f5e6707a5;0x7ff972b14e342;0xba58295ab0e29;0x720ed1a38d4];[0x26f9e9b89e9ea;0x46574c8d09d63;0x4985afca8a74a;0x5fd7a1ad34fa9;0xe9e89e1ae5979;0x57bf5110c86c6;0x1f650be2eb4a2;0x76201990b560d;0xa315be365683c;0x30e6412c31b];[0x1;0x412a6e06f5339;0xd27873ec99644;0xe4f38d2a20453;0x2d9eeec95ad13;0xff1edbac2c10e;0x6b6bdeeb7c678;0x3e1c2d24c7494;0x5b87a0dffaf99;0xe84d990f72483;0x5213d821d38];[0x1;0x9b866e2763c48;0xbd695ad13d6a9;0xc067aadec1d07;0x44b1e23b50cdd;0x170d75ea8c82b;0x1d37b9b08a184;0x4ff4fbdaae73d;0xb18c65e6bc723;0x950a4e5714333;0x6902e2017da];[0x1;0xd55e2cdc55790;0x6ac19ebd93a8c;0x30d3149306092;0xfd04bda53f3af;0x98fa299ce3e81;0xe0c54893fa212;0x46e284db7ff86;0x6fbcbbd0471d9;0xcfb2cf5f4104b;0xf3d61f6f1d5];[0x0;0x9a99f30fe7a60;0x2f5458820dfd6;0xfb9d7e1f85876;0x1021b8f6e46cf;0x6d80539ed1c96;0x2ea4d4df2ecc4;0xed5d3e107f0f9;0x473dcedafa87e;0xebc35fa097256;0xe3619d1398668]]);
 ((V [0x9fd1ecff8ec00;0x5d6095a26a069;0x9e942d269fe14;0x1061021a26a89;0x592ef18469dbe;0xd4c444c267df2;0x1da3b856b593b;0x1ad58841ccac3;0x9a58b6708447f;0x161bfb708a7] [0x8989aec9fd0b9;0x99e2f745f11b7;0x1b2c72253f522;0x29612ed943e63;0x6b9604599ded9;0x9c334272ec7bc;0xa78b319dc8eef;0x232ac06d4f3ec;0x78383274478d;0x5d98d0a212a]),[[0xf641585a406bb;0x7507e2b7d5c7d;0x419fdc225caaa;0x7cdddf7e37a7e;0xdc205aca87373;0x4395b54fbefdf;0xb86f672fb22ae;0xa5e075fa01ca5;0x96b0f73d13681;0x33b23081a1];[0x595f04c70146f;0x8c84a390071d2;0x8640e25e1a243;0x58ba5786f9a1d;0xe7a5c151c1606;0xa53dc40e55862;0x7628da8457b2b;0x3855497b4dd09;0x35a7fdbd5f83f;0x1294d4031e0];[0x0;0xa95d60a11729c;0x25e8857c392d4;0x7203bc0d76a2b;0xab815aef5fc99;0x1a17759a8f748;0x2dda4caec34fe;0x7ac8d64f8bcdf;0x538c1bae9310c;0x5b868d4ffc57e;0x10ae1a45421];[0x1;0x49e21df8c0614;0x13b5e169c8270;0x6d7f78e084759;0x66e9a57188930;0x6b3e1d3686d1e;0xdd08f90d970cf;0xa2c12bbbf5641;0xf0d0a0fa33660;0x6fa8743bf3344;0x6e0ec935db4];[0x1;0x1810e5eb90889;0x670b934951966;0x2488d7b3de88f;0xf2ec886dc48a8;0x74e6629454ae7;0x179ff337f9bd4;0xb133e08acf40c;0x839561b14c529;0xb95828d1230bb;0x17834d8a9ca5];[0x0;0xe4aa00aacaa5d;0xe842e8fe2f559;0x77b7268100a9a;0xede415ab2ad62;0xec4a40631235e;0x3d522cfe7eb59;0xda5146ece7776;0x42f76537b6158;0x5442c6402c636;0x5872e62a4e38]]);
 ((V [0xf7c6d7bd11996;0x73ecaf03c718a;0xe68c363195cda;0x29e7153998b4;0x320fa0f21a9a6;0xefa8fa104ec1f;0x14670fc4b41f9;0x1f91fc5069efb;0x9bdf97835ae03;0x2a45fbf9b95] [0xa3a1e759407b0;0xf8f617357919e;0xcc175f3d23589;0x413c588de6fe7;0x40f02b8fca703;0x3eca708003f82;0x339f68b8a082;0xa4562834b1286;0xd9cb09c4eb71a;0x1ed21794b8]),[[0x58b1d7f1c00a3;0x331018b48b4a9;0x5d9610574c946;0x21c0f1fe4a0e;0x8a8107c92d9a7;0xdb737c3d3fbeb;0xef1f46ada61f5;0x9130155bfe3f4;0x445930ba68e32;0x4abad2d76f5];[0x31332b28446c6;0x1d651eff4ef9a;0x83d0273ca589;0x2edc009593a95;0x99e33f218716;0x43f990eb868ad;0xfc69125a3e52f;0x3e2705a92c067;0x6b12154661ad3;0x1eed1b0233e];[0x1;0x8e710d8900000;0x735a055ad59ba;0x33382afc30c64;0x35c41ef24625f;0xc365b3585a304;0xa17a964ff714f;0x6660866ceeca2;0xc28859f2da380;0xd6400e6a2ba04;0x3a089177b6c];[0x1;0xc107e43f23336;0xc5b66ccf1cdab;0x1009f9ac0c635;0xfc8c2386913b6;0xed534516ffdef;0x8c289d5a1ebe2;0x5f594baf3f3a5;0x3b0362269d824;0x783a9c530be4c;0x4c44b85afe1];[0x1;0x5026d433138b9;0x3c57321482871;0x1c0272a8c4dd;0xac059b90d3556;0x48c6472eeea5e;0xc09d72db8dc41;0x567bd4c6621ca;0xca83943b6683e;0x8c4df6f81652e;0x815ad13e667];[0x0;0x3c9164fc0e805;0x1a6778f8188c4;0xa57a4919e1994;0x789e38f5ac054;0x110bfce9c7399;0x85fb44cf18749;0xd9a42a4fd41f1;0x36e9ae9d45c60;0x9ebc415d69ffd;0x94f58ee6f06c1]]);
 ((V [0x20e31c2a3456e;0xb97808e7ff018;0x90b5f329ab29;0xabe920f82950e;0x547ae419bce7f;0x867e5149af7d1;0x43a4eb930b0b3;0x74cbe7dbd185e;0x15fd1786b4f9b;0x7dd4fca9374] [0xe1de8fc2717ca;0x981c1b67b77d7;0xd1b67272473dd;0x1ca3cb84bdcd;0xe2f1bf1d23002;0x365b02b760ed5;0x8c7b29ae89762;0xb7b6b73663ee0;0x1b684dc1581d9;0x4515f8d0960]),[[0x2265a0acb6bb2;0xe43c851118727;0x676fe6900a42d;0x8ef29f5d9133b;0x88afd5b475474;0x3454a82f8eaff;0xc597e4c682b6c;0x9b19e6998cad1;0xebb3c21c19db0;0x768dd65dfc4];[0x19a0b4e047990;0x7f31be2faed4f;0x50b123c14a03f;0x747b641df9e9e;0xbed45dd59aafe;0xc8007a36d4984;0x6667c6529f0e7;0xe07734b8b89fb;0x62ecc8b3f25f5;0x2fb3f73f852];[0x1;0x1969a430cbba4;0xd9cffb1015908;0xc3eb895387035;0xeff15a554363f;0x356105a1da90e;0x389b47c1ee6df;0x33145694df60d;0x79305ba59c4a0;0x65a0c6c0a4dbf;0x5171dadf8f6];[0x1;0xa49dba59be4c0;0xb0bb6fda77b96;0xeb0e7ea9b3221;0xc7668d80b5e91;0x81017a55df221;0xe3b9af8fafc27;0x2677d171c71f6;0xe98a4198b8417;0x340940e079852;0x11aa650e4004];[0x1;0x19c9ea653f184;0x7e31001ce38bb;0x70eb25033865;0xb203b9d877757;0xb0b786b892b70;0x58484daf91cba;0x5e79314cee6bc;0xe41d4fbd2f4f1;0x628339d26a80b;0x136f3c8d05ca];[0x0;0x5bbe8fae898e2;0x752d2fe171421;0x3114963fed7a3;0x193ad2d5ec96c;0x35e5f7c6e9953;0x304fe5810e942;0xdfe1ee762904d;0x9273045c6275a;0x37e00784f72ef;0xecb6cff1a9dd8]]);
 ((V [0x1edf78891833;0x1e21a0a70038d;0x5ca46302b84dc;0x70bb5ebdda2f4;0x9cc128a345ed8;0x56334d4f23085;0xfc6527658e3f8;0xf65e1c0ecd891;0x1f93ffdf7f6a0;0x1a25b6e671] [0x6479453403ced;0x760329a7b3dff;0xcb42878798c43;0x6832553a0d59d;0xc0b64e54fa4d7;0x614894c76f356;0x71e4a72b4a39;0x6db2506f32c60;0x816f84227f612;0x5ad17f3b34e]),[[0x9bca26de5ded5;0x629dd05b7fd43;0x64553d269bef3;0xb8999f7d4d785;0x364f58692b081;0x37f79a86cdc3f;0xf576e0b88a67f;0x4d5a033a1c0a8;0x4d38caf59746d;0x7eb3cac148b];[0x694d460383586;0x15e90766c7170;0xb000f4094a267;0x225ffc330f5f;0xc70aff4a284f3;0x6d03edd017241;0x2aed813f0891a;0x2a434c5412ba7;0xf356d943a2683;0x24e96443c37];[0x0;0x6be3620c3d2fc;0x1da551617b4f2;0x5529da2e1abc2;0xfeef65623fc13;0xdc2c7b303aa2c;0xb3aee3905d163;0x3f7e8b660fee9;0x1f51a8f5ef729;0xf761cc6604cf1;0x31e09759dc2];[0x1;0xb732e6588c1e4;0x28ebc52e07f8a;0xae33c8c8e350f;0x912c883172919;0x1ba419baf9952;0x7a5c90c9c830e;0x761e04dc8327;0xd96050b774288;0x3bbe4e62cd668;0x54b3036a083];[0x1;0x738afe02bbf29;0x3cb79a9a2b456;0xf7d1dff2dea9d;0xde1874bc4eb84;0x22adfcf523484;0xcd44689a32bfa;0x1335671323663;0x2e1df8623ba0c;0x2e631109c3521;0x17d2db5cace4];[0x0;0x3f5a7226dfbae;0x95af9afc16287;0x6a732bf5a2b59;0x3fdef61e96ad4;0x8396166b1e214;0x3eb5a891ec9cb;0xf086c05f4040f;0xbfd5ca6a9a2ad;0x9f79246332123;0xfd216aa779eb0]]);
 ((V [0xedd905f7ef699;0x84bbf9ff67326;0xc9da6920ad1c2;0x44c3cfcf63158;0x17ae504d0cf0b;0x92d1f2bbadcf4;0x88581fdb756fc;0x28ea1d7458d62;0x8a22d204d5f1d;0xc7699be5b] [0x7c4d43221b226;0xb4da97d3d0f30;0x7705edb53a5c7;0x7fea2aec4274a;0x68515a338345b;0xcd4c1528e2a0b;0xe3d8b0dc52f4f;0x8dc2cf772a2eb;0xd34e1d2746222;0x142cddb35f0]),[[0xfc4a84dad62f4;0xa6431a5fb6147;0xd78f4fc8f1ede;0xb732142e64b90;0x42e7d250aee72;0x39ab47e532283;0xf925184628d26;0xb4f625327a09a;0xc79f0efdf3dc3;0x7f201d60182];[0xc92573fd37632;0x215b6bebc2139;0xee7554c698a9d;0x2296b4e9c3dc2;0x6d0abd93e270e;0xbf83776b295bd;0xf65b68f6468c1;0x7126773bbf51c;0x7b7763d966c8;0x77aa8a4da98];[0x1;0xd5c6c7f7cd519;0xf0f3f943f9caf;0xda43f2addf7a6;0xbbb2f57f33e7f;0x6dd2aee91e5d3;0xd08d90977d595;0xb13ba1cc47131;0xeb1175fbb985e;0x6fc3d575bf4b;0xef4fbd3de8a];[0x1;0xd398ef2a2c748;0xbcd792c5381a5;0x9379069ea028c;0x1bb2e0c4541cc;0x772a087db8ed2;0xe9b1b50e90e97;0x1218b826bdaba;0xcf130852b2dc7;0x8899c0a0d7f15;0x21999f2e9943];[0x0;0x2763a2424f870;0xcabd064ea61b5;0xdd4b99ae4ef5b;0xfb2ff58f1eccd;0x5ee232f685bb1;0x7894e9f4449c6;0xf51ec8230b863;0xac4380f907859;0x901f54a8528b8;0x76298167ff0];[0x0;0xee3920d66d0ac;0x6d15c6937ded1;0x8f0d8cc2ee8fd;0x573f3b3ee8e88;0x204ed56469ad9;0xbe7c19df4b76f;0x97345ab723d3e;0xab89f0fdbc8fb;0x527716fda4381;0xfde2379690d95]]);
 ((V [0x74c1fd960dbcb;0x302f18248723b;0x7a3e137384089;0x555f03d2cf9f7;0x4d2a5aa8c601;0x65de4af3af8e8;0x25c5fc2692b67;0xf07d19567384b;0x2ed8d65f5b64;0x4e18e7e8ce8] [0x8b4012057ec0f;0x98a9c833881f;0xee19d9540a9a5;0x4d3d362227518;0x7ebc3f18d4bf7;0xb0a3d3d053a47;0x9faa1b60f78f2;0x7e38e91ac2e65;0xfdfa3c55aad97;0x4354beff798]),[[0xd09dbfd7b87ec;0xf331f259c7727;0x4a519d467e1a2;0xb617d94a05491;0x898cf6e95f0c5;0x175cac2064d81;0x6004c25452931;0x88b63402ae8a9;0xbefdd07025cc7;0x74b3c248dea];[0xb5f07309ef272;0x461b1e476ae8a;0x5683c66695daa;0xc666e58b74534;0xed0b0b69c27b6;0xc837d2390cc8c;0x681dc071fe953;0xc8cc404c6bd9f;0x5f90ce0cd8b6a;0x3c34ce9045c];[0x1;0x9c195a587b9e1;0xcd3cf89e02a4f;0xa0bdbdac68283;0xad304b15788b7;0xaa92140c927ec;0x705c99008522d;0xab99208632d08;0x20b31673b1129;0xb253e9bc8295c;0x78686675d3a];[0x1;0x62bee69790110;0x19bf71f72430e;0xb5431ed7520a6;0x3675c1900555b;0x68e89254d45bb;0xdc68aea698d0f;0xa1a4176476b17;0xf5087793111ef;0xb17155298dd29;0x14472dad17bf];[0x1;0xd463bda430090;0xb23310ca8b9c2;0xc321295e120c3;0x76e3192f15ed8;0xecbd038861fd0;0x3281317ce7c92;0x6408198945677;0xfe8505c2cd86f;0x76e4d7f2f2b96;0x34e8a9aa959];[0x0;0x4a7f66a1eaa84;0xa09cf240a32e7;0x1e91941ef2dd0;0x5c81d0402013c;0x268a2fa710002;0x37895b8870e2d;0xab81fa2c1bac7;0xd113086153eab;0xa53745a4ce1db;0xe8e6b6aad8ab0]]);
 ((V [0x79301cbecbc50;0x9c359eb769526;0xa0fce9765fbff;0x932b26e6f8173;0xb6da7b2db9298;0x349604dcfbada;0x6aec7dd977b3;0x38d25c6865cff;0x5b5816e2a3f68;0x665b12c118d] [0x381b726b406;0xf82bd44abcd1d;0xe2341e902b3a8;0xdcc655b8febb3;0x83250127293d4;0x97b182d47ff4;0x872308e6da570;0x393fe91dcc4e2;0x2c249c1ff6c04;0x282be71b25f]),[[0x4cee38dcb07;0xec8f76ee9107c;0x17c3b966c1790;0xa01ee9f5bb6f2;0x332052e054d6c;0xc5d619b0fce88;0xc31f37d554fa1;0x33daadf8b6dbd;0xf00735d736e71;0x227c0a74c98];[0x695cbd2c2477d;0xf63e550bdbe24;0x7da3dd8d3cf75;0xc1e21135a17c1;0x1918843bec91b;0xc1839fcf72ebb;0x98fd13a51872f;0xaf47fa14aa785;0x98b9748acf44b;0x375a55e2ebb];[0x1;0x87d0e2a3d8e9;0x8ae4946c2a2f0;0x7df3dacf5402;0x20d7e1ed72ff9;0xec51ad09415a9;0xf145aef185dc4;0xfbc85f0e73bd1;0x173cb626084bf;0xd7d4033dfbe81;0x3f0e4c49804];[0x1;0x1c0710be500b2;0x7e577c4fd8c2d;0x57cbd6ec716aa;0x2c5ea57be9b09;0x5d1572ee31f72;0xdfdd9be10bf18;0x9a5ed62805ea1;0xc335be9b8a684;0xa9c421afcfd49;0x127d67ea7a34];[0x1;0x8131078a460a1;0x699cfa59758bd;0x5075328989684;0x128a9542f73f4;0x1b912db0e2155;0x25482202179e4;0x4f80ffa822f8d;0x56fae004c3b22;0x6ff0b2400f531;0x1fbcf67631d7];[0x0;0xa881ed9e79dfa;0x615093d90128;0x6ae92c78c7dba;0x5c9004fec2821;0x3391732ad1113;0xf0c6cac797305;0x737fb38e609de;0x613fc57ec8a57;0x12d988e6a2d08;0x443d06925c65c]]);
 ((V [0x4649fe1f13e8b;0x314eb37e2e31b;0x375b558da66ca;0xd469b81badcdc;0xf2f45bc382ecf;0x9478e575e955d;0xf08e0c62a11b6;0xdcbe63458a138;0xb3634b9f83570;0x5334261c5d7] [0xdf84b8b8eb07d;0x360d985a518cc;0x36e3e814c5a42;0x1f78c5d3c2558;0xbcd927b8f1f37;0x5416bae4561a3;0x9d7e51f89d490;0x7525922f25109;0xb1e264ad42d0e;0x4053dea24ac]),[[0x80dbffe75242b;0x23a9b010cf8fd;0x1f70f06c3f683;0x98fb6de01910a;0xc030b72e988fa;0x2f5d6937acee;0x3179b0b0987f6;0xe67775b25624;0xbd811bbb8196d;0x1b1a88b9941];[0x6ec88a73ed721;0x4311be70f4c47;0xf003aa914ed31;0xefef3273728eb;0xb5640f44ca8b9;0xcc6d94da21550;0x9976d2c9d1b1d;0x8b7e31448aba3;0xca4010408cd2c;0x7bef2b277b9];[0x1;0x88444bbb18900;0xe27c5613376ca;0xc48030cb05a3f;0xf8ba1c497a053;0x29177a65c580d;0xfcf711b08eb83;0x8701247357c91;0x1d8cc30ec6ed0;0x5ec94a820570d;0xa604ef9e8a5];[0x1;0x8473cc4550fc4;0x4dcb0e1d22faa;0x73d900b3cea2b;0x20cad614e1d76;0x7cc374d372ad1;0x2e77caa4ec730;0xb6b90c943cffc;0xc84382bf7f8d3;0x947bee921a7d2;0x2d697d5c5c7a];[0x1;0x7049de5b0a129;0x96e134d60a7b0;0xbf4aa5f55bbc4;0x1a62a337171b4;0x9d7b93a992096;0x8c6cf517027d;0xc497204f8107e;0xd9e2b177088e6;0x1f02df330cf1c;0x23a17600eb66];[0x0;0x8a22e0cbd6504;0xf1d5cd2832686;0xcf3fd5c39920c;0x3466cef3e91ee;0xb6df85aa3c9d1;0xa0a0f379dee78;0x22e4d7e0e8ad8;0x34868759500b3;0x59934c5e061c6;0x35833a9eaedb2]]);
 ((V [0x3f64d9675577f;0x93dbdaf60bb3c;0x1eb37afbbfecc;0xca7215480e514;0x157ff2aec7692;0x18f2485d0f3f2;0x3955ad66f4549;0xeee8616636981;0xb01f5331d48e5;0x87e384a9c4] [0xaf07f14c5a3f;0x70d127f07ba66;0x40ce0398c3a2f;0xb91ffd4868192;0xdb6ebabae76d;0xcb10aa75cf6ed;0xdeaf7e732bdef;0xb2394c64dfbac;0x9c15bf8d5898;0x1307cfa374f]),[[0xc4e0bc0f73f83;0x1ec056266cc2d;0xf9f5e1f3d719a;0xced0cfbb0d744;0x20359a4a78788;0xdee8d26230be;0x2802cd277730a;0x51308da733cb8;0x54d3958877277;0x3325900257c];[0x5a79e6f91b1d5;0xf780ddc193b45;0x756ac0e06a8d1;0xba5bee0ab3dcb;0xa19b947940130;0x6a6cf6d00bb91;0x2044fe8be3650;0xc22201c217ddf;0xfaa172bb3b450;0x5cedddbcce3];[0x1;0x3a7d201f47d69;0xac86746882450;0x8c9ccb1b7947b;0xe962e7ecac614;0xaec6a88f4fe15;0xcebc98d3fc91;0x657a123520bd9;0x1b70b2536f4cb;0xeb7fb9905e2cc;0x83c604cdd0d];[0x1;0x92be26c1b6c0e;0x2a3609052ae2c;0x72c1a2aa6c32;0x962bf8eb08e18;0x582fc28325cb2;0xa48313857c48e;0xb7e5ef58243f9;0x4f05b5dfb0944;0xc734f457f72f1;0x1fa2a9bc7bc4];[0x1;0x8a82677a719f9;0x1ea3c16f95d5;0x599f20d158b00;0x19e035630037b;0x6753bfa7804d4;0xebf7ea87179b6;0xd372a8909027a;0xb1e0ebcd16196;0x19f9c0e4d73f4;0x1495d0f3eed3];[0x0;0x93789277cd29f;0xfe5eb8ed13fd9;0x99d907fcadbd4;0xb695a80226450;0x18369f56cffc5;0x6e4acd51495aa;0xaf3f7424e972f;0xd6b63b98374a2;0x1d9877c2c238a;0x65f568a18cbe2]]);
 ((V [0xc111ab83ea9e3;0x8bbe53b90766c;0xeb595b4b2de4e;0x1f6d9b4175d5;0xe8d65f94e7449;0xd0d3831c8927d;0x4a7d214156af9;0xa69dbd98c4982;0xa9d9c2a945e8e;0xd790047c68] [0xe1d828612c4b1;0x408b7affeab98;0xa81f33519dd7;0xd7a894de3ccc8;0xd9d957e25e7a1;0x33cd5cd04b7a;0xf8312bce58d79;0xe9f7a685abce9;0x86bfd38d6de36;0x5d49246e8d7]),[[0xd5d6225e3522;0x771fd8adc5f86;0x21f477a092537;0xd4c6f1ba6b57c;0x160ff2eac78a2;0x1505db5334bc0;0x97e84d0ac7dcc;0xe9fdc81a6e108;0x35a246d8a22bd;0x40f29d21b92];[0x26587f4a6aeb;0xef45dc86740cd;0xd0954ac2b15f9;0xd29c555d58507;0x95d9b08bf5201;0x4dd85837e8990;0x47fc0ff2ab784;0x99041dfdb7a2;0x6646b21b3aa37;0x1b94a635f59];[0x1;0x5fde0e04a271;0x5f4fc8609b2fd;0xbbe2d7e72fe9;0x9b37a7df6cf97;0xcea2185736d9d;0xdb5c9e4fc4df;0x2ba2f94865eae;0x1ef8b0a783895;0xe40acaaff38b3;0x369908ebabf];[0x1;0x7453b0e7cbcfc;0xd5085dbb69cf5;0xa1c437232f2c5;0x68d9ce1b1a456;0xa171674a0e2cf;0x6c03916e320c7;0x92734537ccf8;0xec8c7f75a8b39;0x26e3071160125;0x922bf15dfa1];[0x1;0xc9a49c9cd644;0x11834787ed026;0x1be2df39b402;0xf39fa3c0a23e8;0x63a403663b14d;0xd1c09f0a03a23;0xaa8984549189d;0x90442cc3e749d;0x5182e9f3179cf;0x1bf678bd5cb];[0x0;0xe9ae68586b5ea;0xd61d6adc1ec7b;0x29431935de05c;0x2dc7503d2df9;0xa739c9eb66ac3;0xe41b72211f4dc;0x82ce3ed8a23c6;0xd0f9f8d2b0414;0x9fa8c8e9c3119;0x8143042432621]]);
 ((V [0x2050ffe832307;0x3725897885371;0x986d94f88d203;0x982c1360c77cd;0xab10b4ccc6b7a;0x6b01bb46f7926;0x27f3b85c81896;0xb1777d4cc88cf;0x6a50c980b7da8;0x39e86b27b27] [0xeb53dbfc0d11f;0x1d5a2107fb1f5;0xedc1581a8001f;0x4d5cb6323e1f;0xaacee6ba155d;0xe12d2b3db762b;0x8cfef64435e67;0xa7f7802dad759;0x280647d0d0d37;0x7431e04de71]),[[0x262783f7ad729;0x5a15e49f87d31;0x80b4fef949090;0x8fd5627b651fa;0xff152a21ce2a;0x77703f1c89dc4;0x117700667020d;0xcf60ff33425e4;0x65d231ba29da0;0x1067da81221];[0xc7bb54c964584;0x622a818542e7d;0xe8fd0eba8576f;0xca7be93f18110;0xef7d7860ef45;0x4a90b0261fc9f;0x8cf2b0a6c67fb;0xc0dd785c1102f;0x7ca37fb90230b;0x6ab87659118];[0x1;0xd4a45f8fc1839;0x829c1a0a5a207;0x346299aa83914;0x2a89e97bfd4b;0xcb037ee3c256;0x1d15332b02383;0x7e1c50c77511f;0xc70e5248c76f4;0x7e61acd7d5b68;0xd405e641070];[0x1;0x50c61af24ae92;0xd393cb2c66d8c;0x457cf193f3bd7;0x93c8bdf6846e6;0x474192d7f363;0x3398adb40adba;0x282ff6e34760f;0x64594035787b;0xf7f8abeb25dd8;0x268691cc6c6a];[0x1;0x520c363431501;0x16788768ca4fa;0x95539a6dc22d6;0x509f5b86a0f37;0x357fab1c8bbb9;0xb016c728fd8ba;0xef76484e995c9;0x8f898523aa34f;0xeeee043981e25;0xa79a8c8b19b];[0x0;0x7204d6e0245ad;0xb84dc1e749be0;0x3413f1548dd37;0x6a5fcc3df14e;0x66e64e91aefe7;0xd2da58c15d36a;0xf29fa2a0bcfaf;0xd24ecad66d28e;0x902622d86f770;0x1f3774d86dd1e]]);
 ((V [0xc5417275458be;0xf2b51fe56999d;0x7b672ec218e2f;0x2960ab633feb;0x4e34f9d61ede5;0xd4754678abbff;0x34756e97ae095;0xa19466804d059;0x8ec0903b8f82b;0x723a4eb0d2] [0xc2e9316f29ce;0x2eac4b7de0fde;0x768c23a206f;0x98aa3df5b0099;0x90f0900d52c;0x87a0f41f7562a;0xd82d402a8c991;0xc3e16b6ace1c0;0xb1388bc942838;0x70301cbfb54]),[[0xc3831a2a20873;0x2950e6a75f9e;0x2fabe8456e5c0;0x155b319e7a535;0xaca682ff98fe1;0x6e05c59e08ff5;0x6bac2ec5bade;0x3a48df7c42178;0x4fed68171696a;0xebd0ef90e4];[0x4f60bcae724d3;0x6f178aad05593;0x733ecbbe845ba;0x9cbbb095285c6;0x4fd5c7614724b;0x16b284c4053df;0x80d191f821187;0xcc6c740d11b7d;0xf7e8c06da9a4f;0x52f17e2eb9f];[0x1;0x77cd9f06a30a1;0xf668f3c6f9c20;0x2341b1fc76643;0xddabc7dd167f0;0x3238f74b49365;0x5579271e4ad9d;0x1ad5611bf19d5;0xcf45cbf3ecd92;0x1f9547393c429;0x8bb056e94f7];[0x1;0x84c0926abbb3a;0xb80c71268cac5;0xa8eaa893a7c07;0xb0e020913ec5f;0xf321284ce2e15;0x874d508d4a598;0xf4b3dfc4b6981;0xfa7f024d78853;0xca23133a2c541;0x1d6e6cd8dd65];[0x1;0x8306289d24699;0x7af4d4660220a;0xf2ae4cc2e52b6;0x17122439dec44;0x42fc42f6e317c;0xc7a8aea4b9864;0x35b37c9fa6b14;0x66ae434f30530;0xed10c4c13312f;0xf43683f02fc];[0x0;0xeddc0ee6123d8;0x6467485df70d8;0xa96cc878b2f27;0xc204ee6b4930a;0xd7f35313987c9;0xff064e357938a;0x74803841f2b24;0x3fe4247040ae8;0x9405815f18ae1;0x1bc5ef8926054]]);
 ((V [0xdf7949d5d800c;0x712c906155e8b;0x31524a5ef041e;0xd9c00a28cba9f;0xee4f009699fba;0x224f16e68a8dd;0x569d8dcab9500;0x55d6a88c2becf;0x4679836ecaa0a;0x7b82d1e21e] [0x43cdcbdaa6191;0x9492ce80ae6a5;0xe42521fefc09e;0x60f3ad348c3fb;0x2caf4775b72da;0xa0afb29cd31ec;0x2d2a08efceb64;0xb2f5592039717;0xfa359fb14ca6b;0x432059e7550]),[[0x6e86ed5f8567d;0x62a03a54b626b;0x524c0797a7731;0x982fc8d2ef0b2;0x110d62b48e6f1;0xf5f435dd11cd7;0x30d6038081791;0x6b14491ce5c43;0x27372baea0b7b;0x2aa1250d640];[0xceffc7885aca2;0xbda2738bda6ad;0x6f524b8172fe8;0x6f28fab32b636;0xe25d155119ebb;0x4a2d3cce106de;0xc23078953a618;0xf0a79e722963c;0x5cc1e31c8cd9b;0x1695513a850];[0x1;0x85d8a72be62c4;0x35e52649050da;0x24831508b3ef0;0x6fc08b381b753;0xb21dfc7044eed;0xbb3df75ad94fc;0x62f1fd49199f5;0xaf0271e417491;0x3eaaf21c72f40;0x2cc4b27e4f9];[0x1;0x259c1ebcdca6c;0x41fdfaeb0cb5c;0x3d87234dce801;0x2231fdcabc75a;0xc144991313333;0x8e9941f70e6b6;0x848acc69e7999;0x468ce8514d3bb;0x14e7a0e296e0e;0x3cc5da85b33];[0x1;0xe69e85cf5d5f9;0x227f25b1797d0;0x57d72312d315b;0x53ab56aa6d343;0xc8437684db005;0xed5dccd7940dc;0x5bc74504bc555;0xc34e75296c6ec;0x18e2ebc13cca8;0x1dcc62b86e6];[0x0;0x3110605a4c533;0x56c77065339c5;0xebd2c80c857b1;0xdc273f1aad04b;0x345030d61937a;0x90106c6846509;0x36e28c5331dae;0x7362503a4d868;0xdac586b82eb38;0x540618dad8423]]);
 ((V [0x498c4fa43c88d;0x6b1525c1f0e8;0x57b0454f8f381;0xb9d60e3cdbc1b;0x4a0ceb19a60df;0x5be5984587130;0x907156dd84865;0x92212689c43c0;0x377572550aef9;0x3e8a9d40113] [0xbb81aa524b3eb;0x890a246c74379;0x585a8ae3ab715;0x6381b68ef362;0xe39b38702851a;0x18dbe263d3d42;0xff53013cf525b;0xec06d0d71c6ec;0x468432d3db549;0x54dd23ce2a0]),[[0x3758760b778c;0xf5b39864d9185;0x63017ee618cb9;0x3ed960187e550;0x2eb66d776467a;0xde07985ef86a0;0xdedb8191cd803;0x98de9869c2be4;0x9909850c6dfa6;0x55fa5820636];[0x310dc6fa7e3ed;0x48221e8ed290b;0xe434819dcf51e;0x2aee5858b3b1;0xabf4a1007304c;0x8ed206d3c6292;0x54b4ccddad01f;0x83e5b384f70e;0x2b86db729d0de;0x48d3ad7ba63];[0x1;0x58eed5c3ecf90;0xc54fcb95bf4d1;0xac0dbd2d60593;0x7d652e6becbe0;0x4d76b284f825a;0x3fac8c2284346;0xa879270f96baf;0xc7619770791a;0x7cdf06dd2e3c6;0x91302d063a2];[0x1;0xbe314aae31f18;0xd4ce9e4f6f1b6;0xa2b8ed0e2eb88;0x91d273a64914f;0x581f767872b87;0x2ff85a92768e5;0xa87bd67eeb6a1;0x2a252e344da27;0x37c1ac6a64ebd;0x15ac886b1048];[0x1;0xe917c9b8d0390;0x6216f360a0f18;0x65aeeed3efa2f;0xc31afdd4f5b94;0xf17ddd08df80e;0x606416a7f36ee;0xf0b2347b7b7d2;0x44abae99bf39d;0xf73c4df40fe44;0x6235884d2ab];[0x0;0x5d2924b6b2658;0x91e295d63c424;0xfb3b46393795e;0x67543c9e207c;0x98f74ba1689bd;0x8798e734daf2c;0xb7b239540b65b;0xdffe62515e2db;0x96cd59e807539;0xaaf5dca64420e]]);
 ((V [0xdb9e821885717;0x8dc714277c3ed;0xd7d3b340f2be8;0x9192bc30ed389;0x7a26d4109829a;0xf945011522944;0x34f872fd130bc;0x729d01885463a;0xbe6393e4b2480;0x3a2a1b2d361] [0x5ae48fd5a3aea;0x1704a6b6eef66;0xb637ee3d20891;0x5499da9e17c4b;0x86c829a4d943;0xd2a623df20370;0x87fc27646bf9;0x71ca9c6475d1;0xe4cba087743b2;0x2aec1536d37]),[[0xb13a75d65b533;0x19ee7da2fb62e;0x5ca289317b061;0x494fb9b94308e;0x8e813ac9deecc;0xb620c1db70303;0xd9ff982eef2d7;0x1cf143f1149fe;0x7a40c988427a;0x3484e6d5782];[0xbaf2870b6a102;0x1fff01db8b5e6;0x446c7720d3940;0xdda1829326841;0x246ee7c96ced2;0xe2cbb4a863fa0;0x5dadd9c2c8c53;0x52b514fb76388;0xafcda3eaf2053;0x77398c9f770];[0x1;0xeacfeb88ce099;0x4b596b198f986;0x1624bce1b95f9;0xaf4607caf1192;0x83301d8ce0dde;0x184910b8390de;0x2b85ebe3510ad;0xa92c519e65ff4;0x7bcdb46c6c217;0xcfe43acd0a1];[0x1;0xc21263b05d682;0xdbb042e173c3b;0xcc0d10a7ae0c0;0x7c4f9ba791c6b;0xc4dcaea4384c;0x3d958857cbafd;0xb46e75e6b32a6;0x96a5d817bd836;0x5ea5c40f19ebf;0x285b56475a6f];[0x1;0x4101111388319;0xa72e681843761;0x5cfff7d741a94;0xdf00507827f05;0x6d7211304ccc2;0x74e228c3b1a4f;0x4342a48f7e632;0x62f2ec3fa0fdd;0xaf7c7544e0483;0x158f225cf86d];[0x0;0x876f4556897d1;0x2b456f9665e40;0x314ea376f26ea;0xb09967e8398ad;0x45bcb815aef68;0x965672fd53a81;0xa5b0e5d243a77;0x91394f0f0e8a2;0x1006a8e890ed6;0x68408bdffe40f]]);
 ((V [0x322ea2dd8b02c;0xd546706003fe0;0x199722e9af284;0xe7cebb4c4dd6d;0xaf52ca63ae6fa;0xdef4bfadd1529;0xf839307881f53;0xedbd4b8f58e7a;0x9eab9c9758264;0x3183dd5647a] [0xc88a21c0d952e;0x2de56b2594bf0;0xc1848b9e4fac3;0x2d300c8167805;0x7edb816bd0e41;0x9617d1bc5d3b6;0xc4ddc7df180f7;0x60a4090b0a616;0x359feff2bfaf9;0x9056f3b3bc]),[[0xb3eded32b953c;0x96a1e6957ac36;0xd237025818887;0x61f97f9f8a428;0xf484f24bdaa6d;0x794fd3fbf9adf;0xe65ea9e5107a5;0x945fe4677776b;0x6549704751f0f;0x2080e9c6ef4];[0xbb3a01073e09;0x83405ef75ae13;0xecf00a53c13a7;0x57b1d0c3ed84f;0xbf46020ef9f76;0x7723464929426;0x331b670cb7fb7;0x5d2b07decbbdb;0xb3b55aa3501bf;0x2f85cd822d9];[0x1;0xabe359dcd1c81;0x776b9e922303c;0xf018295feed71;0x925d00683d886;0xd1417d80daa28;0x8c7eb0cfa3888;0x83f913305b9b7;0xd32534aecb2f3;0xc88ec76c7723d;0x449d648986b];[0x1;0x2408038ec6eb0;0x8ef4ef10c6c75;0x785500551b7cb;0x82ff780a0a417;0x9b439932c82b6;0x1359088a52b6;0xdd9c47a4c51b5;0xfb9feb6902708;0x73b4a51448a64;0x10756517e522];[0x1;0x2154d4b3b9d10;0x7513217af1b12;0x7d937d66b819e;0xe02a7d69de015;0xb6433fe13eb4c;0x6a8da013a892f;0x61fb286453f09;0xdb6ff2c4f01e7;0xa4319ceffd30c;0x1436f30a8b74];[0x0;0xa7efb4d1bea68;0x9940d351da25f;0xde140a85a76e0;0x25df03791b8e5;0x5bf2cb20678b5;0x60bf17312857e;0xe6cbf2ad31e82;0x48b39731bbcf2;0xb34a5fff860d2;0x40bca3b440fdd]]);
 ((V [0x468fcf5bbda8a;0xd7daca26dd2d7;0x5228b227bbd2b;0xbdde9a2d586d9;0xc7331c829df22;0x9cc9bc803c7be;0xff203d770d8dc;0xb82350cedd910;0xc504beabefac6;0x71e1e0dbbe] [0xc2011619df64;0x4cae0e7ceaa97;0x7bcfa85f250a6;0x8b68e4f7115b4;0x144ba0600db65;0x5d5b5ea19dd47;0xee1ac254eec6d;0x837a50bf75c47;0xad4357f72b052;0x415b049b57a]),[[0x4b9755c4f9743;0x268f3a721d401;0xfac33a8cf3a11;0x8199c508f8677;0x5d697605e1eb;0x4c7eb3213ea41;0x51bf1cdbebd98;0x77f7319ed676b;0x87069f19d3f98;0x724fddce1a];[0x42783513c3218;0x416a5b7234fb3;0x430239c5f09bd;0x3eadefa037d70;0x365b44d00ea17;0x102e9c31b5d2b;0x730cd0a47483;0xbe0f9ef2b3bcf;0x5f9c6c0bd3ffe;0x69976e359ae];[0x1;0x71a2e9e996690;0x92c58f245c074;0x68ce0fbcbb6d4;0x178fc2b40d2cc;0xfea9875a8fd7c;0x8a65db900aee0;0xa9ad9bf9cfb47;0x36d146d05af2c;0x7026b9bf7d45b;0xc0075f1c9b9];[0x1;0xe511108256d4;0x2aff947e63169;0xab0c2c7d2f99f;0x329d128039b79;0x5faa47e61feb2;0xdd038d9e1d71a;0xdeace9672069f;0x9c18e210ee3ac;0x581e7a6955265;0x2788ac63ff75];[0x1;0x2974a7a8d5079;0x42873524ea2a4;0x2ec4cde8cee3;0xf4bfe75bc0dae;0xb55f1a6c017a9;0x634cf24cc13e8;0x57c90f3dc78af;0x9a272629f0bac;0x6473d0c169f8c;0xd3e59affaa1];[0x0;0x629df52c2433d;0xfc67b7ced71b4;0x72fe7f1b4a192;0x4f81d2e923630;0xd627b7a84b4a;0xa91abd7b271c1;0x147337b0baaa0;0x2078ba6c78063;0xd619344cb0dd9;0xdbebda11d156]]);
 ((V [0x31a3c0776cf27;0xe5b6bd256cd88;0xf56e3956f673b;0xff06eec4f0c96;0x883579c33636a;0x1df9e60eab1c2;0x45c9e9beb3683;0xc889347261ea6;0x70d24fbb704e;0x431a3b0cc52] [0x12a21bf89e45f;0x2ed54950d12e0;0xcd0318b083ff9;0xbaca3859be68e;0x11b349ae0ee85;0x96b528b4f098b;0xe3f7f76b216de;0x64efa130dde21;0xb351e31836007;0x46ca041fef5]),[[0x5287e45ba079f;0x4e944c1fee054;0x2ab913556a75d;0x8c7bb51728764;0x6aa1c36768b4e;0x1f3a4d66168be;0xa275363b525fe;0x26215c12f5b7;0xe42cbdc4b0826;0x18cc3894c2b];[0x18e69ea7be046;0x4eb95e3610828;0x4c449af5ff06f;0x2188384354289;0x2428dc9458c48;0x70412b90b0d19;0xd49016530961;0xd5d5933eb02b7;0xc99ff336dba45;0xc0569e0ffa];[0x1;0x48b964bc84224;0xc8a5969de6bd5;0x34f24e9e4ee53;0x62da8313000b0;0x31a1327b871cf;0xceb63c9e06b4f;0xaceda3f34cc8c;0x11d22afc0b7de;0xcd2e0700e733d;0x17a58162614];[0x1;0xab7e6999fe6b8;0x3659434ed0140;0x9a62fd74f99c3;0x58a2e07af0346;0xb7e841d2f9446;0x46ed981c0c1dd;0xe52e76e1a2d9;0xfce726cabe3ee;0x3578fec352e5a;0x2ecdcda580a];[0x1;0x549cdb4628a31;0x44f71adf2b248;0x871da81c1b08e;0x8f0c659c6b62c;0xc9b450ff398bc;0x610bb6c095170;0x6ca89aaa76717;0xbf1a4208191ce;0xb3408f351cc08;0x9ddf13443db];[0x0;0x9bd3adbfe9a72;0xfc8457aab99a4;0x7ae4c0c22f2d2;0x993633f2cbe93;0xbeaf1ef4fa30;0xa35c71eb41b76;0xd21f354c910c9;0x9174302f1e0ec;0x2f64b7843e03a;0x30955456e1a59]]);
 ((V [0x928273db22e7b;0x25a8617c45e;0xc301a67e67af2;0x8eec1c38baf88;0xba453758b722f;0xd440c3b6a7f8d;0x9b3e9fd6e87f4;0xa0e4120b3f86c;0xea542b8305176;0x47169fc17b7] [0xae46a1ebf49a0;0x67de45db631fb;0xd435f7fcec478;0xc50f8075eaa39;0x84fd5581ad2f6;0x6790fd7ec0d04;0xa3397c7d7f93e;0x11ccd11941e2c;0x2af88b7fef3ce;0x4d4b3e8b6ae]),[[0x80bfa6ea246af;0x4f2fcaec5dc3f;0xc161b9a3ed989;0x3675d4b754693;0xae2f905885c68;0x85a3714c86444;0xc1ccbb070aec6;0xe44afc962d2df;0x61ac1c9a39071;0x17062e4c135];[0x106913e8a1204;0x258369a058ee1;0x8bce5d10fa60f;0x6db18b3e2a3ac;0xdaf7a621245fc;0xa32d0958896a3;0x9cdaa0323a48a;0x5994cdd53c3c9;0x7a4619f0b8d1d;0x59ab9ea995];[0x0;0xf3222040cdd9f;0x10106fb2976fb;0x2561d45b63bf1;0xe6aa0147a856a;0x4e38d70598dd6;0xb824bb79d9ed3;0x8fd0cf5a7bbef;0x4f7b671f287aa;0xc8986d07e6fed;0x17f8075c441];[0x1;0xa54ed104162c2;0x3a827a540ad67;0xa0888cc9043ff;0xf50e23ea3ecb2;0x11a66f4ee33c9;0xfd734c7a032fa;0x760eba709c32d;0xb40e175ab3513;0xb9268ab472d50;0x828ebde62c];[0x1;0xef2468f298311;0xc99ee05e6ab46;0x9bc68e1e9b56;0x7168a718003a2;0xccb81cb5d488a;0x5d9c01cf854a0;0x88680b149274b;0x674bd6c3b76b1;0xb7101ac45dbff;0x19671f2c64ca];[0x0;0xc7103194bc25b;0xba451d859111a;0x8b3e30da983d4;0x235f43912c96c;0x16a911fbeae73;0x34034f7c383bb;0x512106ce4bc40;0x464b140aec167;0xb78fea925dfb2;0x2cfa80b5bdc72]]);
 ((V [0xe1b2370c90dfe;0x880ca930c2915;0xdff2e2b9f3566;0xb00a82a07db99;0xc68f290a9c7c;0x3abd060cab8f9;0x3ce4d8560628e;0x20d8be1bb6e07;0xf89b0ca1b96ac;0x3861d4d1448] [0xcef8a76b38fb;0x42af301b15a41;0x80c50df889c5b;0xd2cadaaa7cf0b;0x5a48b7eea8973;0xba1ccf9d1eaea;0x501fdb0e4b743;0x56514b31bb64a;0x90a9190ebcbcd;0x1ef1147ca7c]),[[0xd06b2a60ff7d3;0xbd81bfcc8fa94;0x9bd4d642fea44;0x358eb4eabcc73;0xe3408e4f49f72;0xe20ef0c7f7fa2;0x4e013ca6263ca;0xe6ca5ac88988d;0x15d1456fe9a7d;0x12a3413b6a6];[0x50efc3d1038c0;0x9cc7516e21ecb;0xf22ff1c348257;0x6f3f783850789;0x9fac9548737ae;0x918263148d76c;0x3fb71a0976e37;0x99106424d4b5f;0xa9dbc22947b9e;0x556eb6a186d];[0x1;0xd81280641c309;0xeb17ecf26f0a7;0xe9dd637943c54;0xa014c6a05cd9c;0x60a6a4755dcd6;0x5e4bf2e8d3af0;0x4da1cebb45c86;0xb00e731742d24;0xe7553ee420a8b;0x83625008b6c];[0x1;0xa6378b408e1c0;0x3f2224aacdb96;0xa4fb1a71a989d;0x727f87371801a;0x5bbf3f46cd249;0x18d90db08e028;0x3d37020e68401;0x2ae5772114256;0xe4092ec79b878;0x1ea15f3c67a9];[0x1;0xc75152f00d6d9;0xc318a0273bfbe;0x74fbeb1315f7c;0xf0ff9875ca71d;0x63d205f0376a3;0x12c8c29671790;0x7b65d3f2e5bd7;0x1579a99e776fa;0xce2a65fff43fa;0x18a676e177c9];[0x0;0x28ecad5a2f1bc;0xf26aea64fd343;0xb576632883a3;0x6a1fd1fe82bf3;0x3e308ec8ccf03;0x95c3e27ef0fd1;0x943947a3ec52f;0x69822a1e9e2c9;0x144c8b1d9a3f;0x2482d14042e00]])]
 [[0xc27d2edde0c71;0x23d9905a584d7;0x6487ec009a406;0xb1024d017b501;0x3c87a5b18d86c;0xf9ef44bb4f6ed;0xfa97c3376180e;0x8c3d0356bd7cb;0x270454761037b;0x4e8dee0c807];[0xeb8d72a885e11;0xa4b8b18ded63a;0xe16ab733e6635;0x64ea5da9edc89;0xa6bf421c57236;0xc43f80a7b64ef;0x81b8c1d289e22;0xc81723a59fe5c;0xe389d1a66cf2c;0x6fd4c8aba44];[0x1;0x21bce2fe9cdc4;0xad00aaabbcbc1;0x5cb7615826d2d;0x9665325fd7457;0x14256a7dad88;0x60c899b19961;0x6f84e431017af;0x1f7e56fdff37c;0xc65f55272c2a1;0xc6d3ac5a3d9];[0x1;0x45ed316189d36;0xc4c4b6df0eecd;0x12a06617cfe6d;0x687a9655e2833;0x2667066af0e22;0x2e22a4069ac07;0xb9a511cc6d0b4;0x595481678eab0;0x9c3e1a8335be6;0x2790244d63b3];[0x1;0x97adb09ab9d51;0xbc968ea186cdb;0x20402818bc9ec;0x4b1aed30f31d0;0x95ffde9d0ab54;0x4316afb164f66;0xa70633aeef410;0x8ddc7e8f95922;0xf772b7067a102;0x16c1b0d26aca];[0x0;0xc670119248c3;0x9023bdabb34ad;0x7524a16e76188;0x871be7167217f;0x274c76f349357;0xc5dcfefd1866f;0xfc27c348b2fc2;0xa9cbac739c45;0xb65250a97783e;0x9cf4a11e833ad]].
Definition wit_512B_64_13 : colwit ipt wit := mk_colwit (V [0x6865ccd1b417b;0x1ad181ef5e5ce;0xef1c3f7494756;0x111b86eddabba;0x17012c2d1810a;0x805e902e3e1;0xb833bd39cb680;0xbe72d9a61a2db;0xbe3606864a311;0x7901af8d8cf] [0x210d3bc2e7a18;0x9e97872aa717b;0x60e86cfc059b1;0x14553a2479cad;0x8a7d14f1f4068;0x3516adaae2f67;0x6224fa2e9a249;0xd7cc9eabb64ec;0x6242c6689df8f;0x3f4fc86b939])
 [[0x4e804802a7ebf;0xc9f6ab96e531b;0xd72c31bfc5c12;0xdc3a199ec7492;0x11c38f635c7ab;0x9b8d19d42a1d6;0x51256954be47d;0xe20366ad80568;0xa897cc0462452;0x455eb7f67c1];[0x4602dbabda3aa;0xd719de4e78231;0x3d244bfce5dc;0xd596f1567d432;0xc504d6aaa4a07;0xf12b6e515e8a5;0xfefb22352e18c;0x81de99a8b6ea2;0x733e23055850d;0x62702112be9];[0x1;0xd6d7ac00e4100;0xd955ce4827bc5;0x2f61050d910ac;0x66f5f76414793;0x6e6e9dc53aa0f;0xd3098f65924c0;0xfc9e4081b418b;0xe70938aa8e22;0x2c74067496698;0x80bbaddc8d4];[0x1;0xc5247661c8cda;0x7e22b9609a52;0x4ad6811eb3cf2;0xd0e77327dbf28;0xa87164d6f016e;0xa0d6bc6551d28;0x549cc67c6acd6;0x717f9e5586022;0x4e845635330d;0x23ca4596223d];[0x1;0xa5f5140f5cbf1;0x1d8756ba3fb95;0xcd0babd8ecb4;0x5fa1faa9161fb;0x5c3e16cc13ec0;0x29ec713092638;0x25969ee9be4a7;0xc1d8edab106fa;0xcc68771b815f1;0x241fd9d702c3];[0x0;0xf12b913d18c44;0x7b6d32ce291ae;0x31aeb3dc1637d;0x1c8f907b99625;0xdc9af3574e7a6;0x25dad39d3f804;0xb1ecce48e674b;0x1eb080d1d5725;0x9cd36e15f8449;0x8a540802e11de]]
 [[[0xfc27f9a914c37;0x64c13d099002a;0x5959a80d0a85;0x5be72888b5769;0x3b88cbe83fe0d;0xb1d3a8c02177b;0x5402180d2b053;0x49802e021aa68;0x4fa12032e2a37;0x316ef58beb2];[0x1;0x35dccffdcbbf6;0xc24c80ab60cba;0x34be2a3a05486;0x935ed4ea23775;0x4e18ca8ba8f8a;0xc5fe1a447916;0x850f0bd1a26f8;0x7428b0e5ca4c4;0x52eacc5b8e62c;0x9e436b7a6721f;0x1];[0x1;0xcf435a949d041;0xf8abdddc060d;0x387f3965cd816;0x48c6f2380b01e;0xc79c0af99c7e9;0x3890453caa4a3;0x34f469db87809;0xb47f825af1c31;0x90bda493f8d42;0x2511d1b323f9];[0x0;0xb45fcee99ebc9;0x5cd55ba16b225;0x62d18ae5ff8e1;0x89e076185467c;0x3ffba253406ce;0xfad0515d73b90;0x7719f3764e902;0x26f3f325df07;0xd0f89b1726d63;0x6203fab45a60f]];
 [[0xde9385ad51f36;0x19f1cf7a841b8;0xb0dfe4f11af83;0xb4ee0593a9f98;0xc6672f976c6bf;0x87d023884d80b;0x2eb3a47e14a68;0x789ef51041ea7;0x942aba62640d1;0x77deed5ea99];[0x1;0x9b43727de7fa8;0x350907834bd54;0x3120357bb85ac;0x297ab58cfc6fb;0xe2540ea765a7;0x3cf18f6d8de82;0x8f35c7fbbd1ce;0xdf21a67eec51a;0x7c519a3df5b34;0x10429e04a55d0;0x1];[0x1;0x1fa3e47adbf24;0xf5924880761ca;0xe5acf681a2b77;0x2b9ad414692d1;0x6ed819d07746e;0x6d0f68d728f01;0x1fa70c2ca3d9e;0x742b92db2c972;0x302df09379f10;0x13fdd99a38fb];[0x0;0x51cf35e58f112;0x91627d8d2391e;0x4c5717704714d;0x7c26495b70dfc;0x4d5a7dcb74b17;0x9d7516ccdc741;0x52c59ec4c3152;0x1554d365300ce;0x30a62ab7a7abb;0xeebea44d2c667]];
 [[0x50b99bf55b5f9;0x6f6ae7b05b0a0;0x1965c385ae5c3;0x366e3e27113ef;0xe18069bd1f2e9;0xd4fbb094a0763;0xed82a59ee4ea2;0xfdfc64cbc56c6;0xadbf37fef96be;0x714aab0bc95];[0x1;0x261845f6e8782;0xbc3080233ee86;0xc9dab4ad98449;0x9b43bc005ada9;0x9ec828af848e4;0xbc7b8ea1341ef;0xf377632af5793;0xae6b2e88c52d7;0xa0e685fb1b4b3;0x1d30e04e8ce93;0x1];[0x1;0x16c93e92a32a1;0xdbc8c1be4b427;0xaf4e44ea06376;0x2da6949b4bb28;0x5ba65141e5e64;0xf9a6453e3405b;0x491e51f5f6d81;0x504a5f9b38179;0x7810befc6a072;0xd8b61675689];[0x0;0x3cb8e98dfeda5;0x7a3edc1ca23db;0xbc6cc61ee8ad6;0x5b714c74262e3;0xe0d83fd76deda;0x5cdd32d6f86e1;0xb6b154a21914f;0xe08a893e06ddf;0xa5d7e13514b08;0xe1224a4bafdeb]];
 [[0xe929d00c0ef5f;0xde9cfe6e2352a;0x5e46d4a9fe8d5;0xb306ad610a137;0xe7d985cf7bfea;0x572c7ea95a575;0x97e4816ef00ac;0xd1a7dbb731358;0xe060d4952b13b;0x12347df45d6];[0x1;0xabe092fb6e3a;0xea59e3a0a1458;0x56a72c47f2208;0xfab663fa3a4a4;0xf3db913dba44f;0x933544f6ff9ef;0x1d4985a0415f2;0x284afa9443434;0x2fa09e322fd5e;0xdc0cf8140d8c3;0x1];[0x1;0xd86d8f4a0b2b1;0xa6477cdf4f01b;0x92949a718cada;0x9f831ec3fe646;0x78e124e388c46;0x1cdfa09f0a93c;0xb64f100ac0594;0x1eb15cd79dc44;0xea2597cf91e43;0x145352865063];[0x0;0x4bfd4f244730c;0x2bf8ff52b304a;0x440f78678bbce;0xb3ec7ed0fb98a;0xee56923aa2361;0xfa9798ca2dee3;0xfa53bf8ee23b3;0x681742ee3659e;0xbd04993dba6e6;0x22e87eec73fa6]];
 [[0xda3b25d66d46e;0x9c535364e7435;0xf0dc805fec5fe;0x39166682e0505;0xbf60d46eb25ab;0x59c4a5dd885cf;0x61c9d55d157fb;0x7011ecaeddaa3;0x69f92a4c4bef0;0x6ceae0f9e0f];[0x1;0x62f3a51fef52a;0x6678980a2a670;0x7663514863c85;0x1a013c91e9ad4;0x7eee536450795;0xcbd067d491c74;0x8032c155ff51f;0x3d02f68ff1102;0x52cc362f17e9d;0x26303dda0c5fb;0x1];[0x1;0x8bd9ad39d104;0x525cfda4a247c;0xbcec7eab23e4b;0x66323059788d0;0x45bcc1924e83d;0xcae948702889f;0xc2703b11c8063;0x4245d6dda3ce6;0x364f60647d8;0x17f7b0e70b9a];[0x0;0x2bd7fad996a3e;0x1136b0179d620;0x603ad454e0621;0x4f7b9f323ac1e;0x8f9ba071b1416;0x3d2e0ec84f8fa;0x90b3edc9a505;0x16f3ce3566a5e;0xc10ce5e89ebec;0xd91eea3589dea]];
 [[0x70a27783d7b39;0x87b19d3c4a62b;0xadf4fe3d292a5;0xcd1706e1017c9;0x1c3e80a981c85;0xdf0b003d26774;0x5db251774aa24;0x10112535288bf;0xe4453fe62026b;0x7338d1d33f0];[0x1;0x38c192c067323;0x593d4f501ed7d;0xbd762bcd33c55;0xeddd815722a6a;0xaf4c063875b48;0x57e2dd35b863e;0x7ae220c8e19cf;0xb9e3d678013db;0x15c1dbdf50b3c;0x1a6b7c0382d09;0x1];[0x1;0x62a38264d5121;0x63bf59b17d4b0;0x7052ac554e691;0x9b702eb27f47c;0x9073dfb15c49d;0x502cd3848d769;0xf67d129f3773f;0x8eb397ff13c7a;0x2f10c529c405c;0x17b1345ff351];[0x0;0x4e74930d2df39;0xcd69fb941c848;0x47ec801ff37ed;0x3c6471e4a8024;0x24a15c338edf4;0x2f914dea74580;0x7621109f0d773;0x182f66d2c333c;0xfa294bed7f778;0xe68c3c79121d8]];
 [[0x51955d7a1a7;0xa4a113d6db6e7;0x110ab20a488a7;0x1cf7a1584c950;0x5a97b5cea76de;0xa0098a9686f0d;0x2f4ccd6ace04d;0x224304a4d3aee;0x862f7e70e30b3;0x73cd6481ab9];[0x1;0x1796a463ec67d;0xa3d6eb6e958a7;0x9dcd5dcf242fd;0xb1273f5a8b3d5;0xc107442f498d3;0x234ed3ee622dd;0x66966e413234;0xbe33663f68c07;0x151a438678d06;0x188114ea9224f;0x1];[0x1;0x6db1a4ed2d561;0x642a49bef6595;0xf9b5fc393675d;0x9f249e5bcef3f;0xe7a702b0ea51f;0xb8d682296f5bf;0x1c42d00039610;0xf0cb9e89d199;0x250e1a5cbbb6a;0x165370dc85e3];[0x0;0xbe7acd4ca367;0x11f50dfa68e;0x272df4ea7bb8d;0x8f490a14cb8f6;0x1b1b56a4a6aea;0xde2001b7caf06;0x17749b3e21fb6;0x356cbe0788b19;0xc7bf595618b5e;0xe6fcd879b5550]];
 [[0x5cb7ac328d35d;0x94f3e7e37379f;0x7801f41b117f3;0x57f80ce36cc45;0xa1258a75a18f1;0xd65efa113943d;0xba472a0957437;0x34af8c68bf2c1;0xf2696d0d55186;0x46613d8fd29];[0x1;0xdc5041312d82f;0xbd9cfe9f90fc9;0x3a2839eacd91c;0x74b129d81b93d;0xbe57b81f97419;0x497d1b69c75c6;0xdd948f5ac90d1;0x2e77c65d4a8cc;0xfd3a6252613d1;0x743160ae6b92a;0x1];[0x1;0x5b1326486c0b9;0x72d21f04ddad6;0x74d94ec5160d5;0xa890c8d1e3f93;0xa583fef64a77c;0xa34066f67106e;0x346b665dea8e1;0x8b7e7e8f9342;0x814bf16a69e84;0x26f1c1dbaea5];[0x0;0xeb7a2dca9eaf2;0x199ff990ad9f6;0x57740af97cc74;0xe6f4ef5fba9e0;0xf9b2129ba8558;0x3269219eaf7f6;0xb6d394b939f65;0x4e439ea26afef;0xea6609c075326;0x8c20fd89de25d]];
 [[0x374a5da7263bb;0xb17c77cc80b9a;0x4cd9da9e155cd;0xfd8b734d76d05;0x85f4bdf24a0b2;0x51f18fde242bb;0x754db567e8fb;0x270afcff891e4;0x2aa6d49d7af6a;0x20e74f4dcd1];[0x1;0x1efa57e101496;0xd22b25817582f;0xfdd84388f52b8;0x2712d3c37c66e;0x1d61c6fd54d10;0x74c091eb5a213;0x9dfd096b6092e;0xdac9acdb347be;0x6f96540c718f;0xbee45684cb996;0x1];[0x1;0xdfd95dc590689;0x6b3972b3e8697;0x9ab5d85f229cd;0x306f2e2edbec5;0x40015d25e6ce3;0xcd0568a549932;0x672bb77f189c4;0xa60d3affc4c47;0x300ed025ae63d;0x201a0b8e0251];[0x0;0x887c367914b3c;0xbcdee9129c4ee;0x34c3877e415f5;0x5196a474a043e;0x9f04a9e6352d6;0xa1ae41d402f47;0x27c8f8abff5ec;0x7c26053f26f84;0xb1c2e7ce04bd8;0x40cc9de595825]];
 [[0x76b9b7bb59dd0;0x148c2a79e98d8;0xa13e91896cc56;0x460cbfe031f5e;0x8f72336818c52;0x3ee6107838732;0xda5287220654b;0x5100d924cb4c5;0x4bc4cf9364030;0x688c26a9689];[0x1;0x27917c9ff9d30;0xd74a354449dde;0x452c0a39e9af4;0xc2447e46bea72;0x98f4ce7c6a4d9;0x7e2cd6ed1aa0e;0x326733343cb37;0x9dd326b50729c;0x9a76a4ceb2b67;0x2f21cea6e86bd;0x1];[0x1;0xd8a6003a9b900;0x4c77b2afcd94e;0x449fe7d04c4b6;0x7321ab028130d;0xd23d69be4f309;0xca22bbde6da05;0x2c1353ac3fc53;0x46da4a80af60d;0xe6536f6cbe51e;0xdcec274e8dd];[0x0;0xc71e3c03197c0;0xdbb42ba9eb7bc;0x2accef28005c3;0xa27e1ecfd2d88;0xc7bd80d96550a;0x65b7a5072433c;0x3e8f84072d2bf;0x17cfb1526277;0x88fa0893e0ac1;0xd095d51522d0a]];
 [[0x57d89d9294b94;0xcb4609c29530f;0x8880baadd3594;0x87a1263a3c0e9;0x1d534a1fbe58d;0x84dfa1dfc4d1c;0x80117833411c;0x8a303de9ea5c2;0x72e77b812af1b;0x63f8d6a8079];[0x1;0x5cdc11950d950;0xb45ef8bc3090e;0x611b52e541cf0;0x882ccc468ef4b;0x364a4def01f07;0xf29fe80ca6f7d;0x88349627f2854;0x467e6a6b6df79;0xc5c464c41aabe;0x385f22416782a;0x1];[0x1;0x16ff404258c90;0x407a93e5d6922;0x6d8308cda6ead;0xd0c90b55137a5;0xef1060e96adc5;0x5f6a619ff78be;0x5dc9183af5c92;0x7779097941a2c;0x6248d670bb974;0xe44db849cd9];[0x0;0x51fdfec90f9cc;0x5e11e046502b0;0xe604232fa2cf0;0xfca053db63526;0x97e7f0175125a;0xd923ba1d4aa5d;0xc1b86db7f8a84;0x6ff39799a2ca7;0x954cd27169ccb;0xc7ab74e5e834f]];
 [[0x6888eb255daaa;0x714e8dc44dfb8;0xb5a07676d79da;0xbd1469cd8a221;0x591fb1dfa9fb8;0x30a31eff77453;0x3e6c25658f501;0xbf022f22b9646;0x831c70aee5098;0x635e340f697];[0x1;0x18a8750b665cc;0xc4e289d033a4b;0x8337a31396468;0xf6797e92035f9;0xf0fe9c79f3e2e;0x27bf6318e18ba;0x74944df4f503e;0xec5613bc48e5b;0x75fb02a77771c;0x39edc86591b2a;0x1];[0x1;0x6dbc5446640a4;0x6bb5920beda8c;0x938c872e71e22;0x7ca499c40e87f;0xcfd5fc84cf013;0xd19ef77531e33;0x9ec99d39f737e;0x1a1ec8a08cc7c;0x14525ea22db7;0x12b65ae77b03];[0x0;0x1ff968cda69ee;0xa68b7c61beafa;0x8eea7806faf7e;0x12e352eebd81;0x5ab8ea8c8bec5;0xca46b21ca81fa;0x4077446a2394d;0x2baafc185a84d;0x1efb3d52c1210;0xc695f2fa6e3dd]];
 [[0x385e1e5db1556;0xb411d7f257ca9;0x24003f5f0cfd5;0xe84bad8ca85bd;0xd9554e580e3d7;0x4ada66065a73f;0x9b37ea6b790d6;0xcf06b3d7a4000;0x6f58749cc3d47;0x7da00d71624];[0x1;0xfd43dca099578;0x43efe4d54a;0x7fd56b077bdae;0x223273f06b572;0xb938cfe9b9689;0xc299e70ce1bd2;0xf98fd4f356b51;0x4b65bdb893e36;0x2daa7d7b4ace3;0x5184cf071cad;0x1];[0x1;0xc076017380a4;0xf662aaecd46ac;0xe5992787f9e61;0xf2df01b7a06a2;0x3a55eb6388d01;0xef8b726d1606c;0x5a4bb10127168;0x6152be3b72200;0x6baf17ac7efac;0xe588ac2dfaf];[0x0;0x6a96f84b925a8;0xb5111bfb435d;0x711ed1a0288a8;0xf83e35358d236;0x3c23a85dd62eb;0x5952218b01e72;0x1bb6838f2672f;0x4e2db7983d88f;0xe40d58bae83e1;0xfafc5c8846f76]];
 [[0xb0c52a04f4afc;0x62b797a9f3d2e;0xa4167fa76f94c;0x834cc76c87f34;0xeeb12d05e4548;0x64b015bf54c8d;0x4b692559e3f28;0xa0b31f85e102c;0x5b002fcfd3a6d;0x64db074ae21];[0x1;0xb96316b398c1c;0x5f342d3b39d9e;0x4fc7e66f6ce1;0x9d6a73905ab46;0x3290a5b7209f1;0x55163cf259f1b;0x9f6acff72e9a8;0x7c3039c0e736f;0x83efa99b42747;0x36918ab7bddd8;0x1];[0x1;0xeb67d2afa3f10;0x90c424a2fc134;0x1453b1a42a9c7;0xf3a32a549837f;0xba5ea7a8c9c96;0xafcda65bccb66;0xce46053970e0d;0xf16900fa94126;0x6c1ecf6a37c10;0x1ba05af43c1e];[0x0;0x905a8947028b8;0xb2e90c8b05767;0x518b9fddb756e;0x355c84b7e6324;0xf5f1d00c7fe30;0xf3c71400aed7d;0x9d6e1893572ef;0x9c3b3a5574d1f;0x34fa396e6a263;0xc93854b1dbfd7]];
 [[0xab7fd09ab4dfb;0x6fa1cd84cba50;0x36606785ebbc1;0x306dc40df8a96;0xdd0f5d15a4143;0x6e7c61c0a26ac;0x853de1b13123c;0x9fb42e0d9ab97;0xcaca71ad5dd12;0x1763d34bd88];[0x1;0x8004c4e6ae9f8;0xf2aafacc2cdcb;0x94e13b6485933;0xa40688e1767c3;0x388432851b3ee;0x83f6e357b08c6;0xbc5855f16c3f7;0xd6f4c09787bdc;0xba085f44bf8f1;0xd2919987612b2;0x1];[0x1;0x85fc381577809;0xd42ee55a533cb;0x22d3d7facc325;0xc716664e75395;0xf832ca63a2e0;0xe71164276a357;0x14ce104248aa5;0x68d0ecf675212;0x5142250eaa1b8;0x24f2d0a2530b];[0x0;0x7676b30fc8a1c;0x5a0b55d6eeac2;0xc2244713a1802;0x99617fe38b46a;0x11541e071e7f9;0xfd830e25a1e43;0xf2cd8563094cf;0x5711443b58b03;0x1b1d545d16ebb;0x2e2d5172259a4]]]
 (V [0x6865ccd1b417b;0x1ad181ef5e5ce;0xef1c3f7494756;0x111b86eddabba;0x17012c2d1810a;0x805e902e3e1;0xb833bd39cb680;0xbe72d9a61a2db;0xbe3606864a311;0x7901af8d8cf] [0x210d3bc2e7a18;0x9e97872aa717b;0x60e86cfc059b1;0x14553a2479cad;0x8a7d14f1f4068;0x3516adaae2f67;0x6224fa2e9a249;0xd7cc9eabb64ec;0x6242c6689df8f;0x3f4fc86b939]) []
 []
 [].
Definition wit_512B_64 : list (colwit ipt wit) := [wit_512B_64_0; wit_512B_64_1; wit_512B_64_2; wit_512B_64_3; wit_512B_64_4; wit_512B_64_5; wit_512B_64_6; wit_512B_64_7; wit_512B_64_8; wit_512B_64_9; wit_512B_64_10; wit_512B_64_11; wit_512B_64_12; wit_512B_64_13].
