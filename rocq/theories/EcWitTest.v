(** Witnesses for checking the table of ecp_id_GostR3410_2001_TestParamSet.c (EcTableCheck.v): slopes, quotients and intermediate points. *)
From Coq Require Import List Uint63.
From Verif Require Import IntPoly EcTableCheck.
Import ListNotations.
Local Open Scope uint63_scope.
Local Notation V := unp2.
Definition wit_Test_64_0 : colwit ipt wit := mk_colwit (V [0xe6b349fed8144;0x477e5032fff94;0x7f12ba070bbe0;0x6b9dbbd4b886c;0x177b43e9661a] [0xd30fd3c94056;0xc6f6a8f500d5a;0x6b60d11c52809;0xc373974246e7;0x7fd76d5916d3])
 [[0xec1f63684949c;0xcf42ed353c3d4;0xba28702195a61;0xeb75c8b3987ed;0x1958e628c2f3];[0xfffffffffe2a9;0xfffffffffffff;0xfffffffffffff;0xfffffffffffff;0x7fffffffffff];[0x1;0xfffffffffda47;0xfffffffffffff;0xfffffffffffff;0xfffffffffffff;0x7fffffffffff];[0x1;0x7e93e1727f9e8;0x77f976f8b5c60;0xceb818f47e8a2;0xc892f03f5dd3a;0x3fe6e3d0bae34];[0x1;0xbee93a486c3f0;0x63f4fd0493077;0xaa84cf3ef8444;0xf6461bbfad18b;0x229f1902cca26];[0x0;0xa463c109129d8;0x1215fa5f86611;0x4e9f1065b88e7;0xee34a3694397d;0x2518c7e11e2bf]]
 [[[0x6e2cd2e14ffaa;0xcb4758cf91759;0x8c17b84b3c5d2;0xd59c7d3a8aca9;0x5994c535fe52];[0x1;0xab43d432cc870;0x153403bb39710;0x2936324ca54cd;0x1f8274ef75a0b;0x6b4ba5d9b60f0;0x1];[0x1;0xafe0cea4799dc;0x98ae159030076;0x3fa14d342d2bb;0x13b1f4914a193;0x18940bd0fe70a];[0x0;0x718c1b58dee5a;0xa3598e584d2cf;0x960e8e8155177;0x8c3ded6b0b86c;0xb587e5b420982]];
 [[0xf8dc9faae7abe;0xb33d195856acb;0x91a13b1442972;0xcb51a53937408;0x205a50b3f60];[0x1;0xe6a7928b30d00;0x37f397a073fe8;0x938c997d366af;0xeb2ad1439988e;0x16dfc645c066f;0x2];[0x1;0x49bba17d0f7bc;0x6d3a2b1086ee8;0xa93f511436e06;0xbe06af37173a4;0xd40ceeb596ba];[0x1;0x322d94d249f64;0x8cafeb7f30ebd;0x395c09548b5a1;0x4b886334f93e2;0x2fa5e1744a0c]];
 [[0x500af1bab6dba;0xfbac1f82db1fa;0x296df654ac218;0xeb11be9ba495d;0x683945c4b380];[0x1;0xf560dcc638726;0x934af9adb55a7;0xe0472201506ed;0x1e30d8872057c;0x45e70aaf1eca0;0x1];[0x1;0x121bac103379c;0x2988a60068202;0xbdd2cf8536614;0xde1128fb082d6;0x8418d3df9606];[0x0;0x1f80ed145356a;0xac68eb8bf39a2;0xd681b83c04fc2;0x4a9b751f0ea14;0xc275686cc28de]];
 [[0x264fa75856206;0x87bd851dd0090;0xf0c08dbba2a72;0x1948b801ad614;0x45457fcb748e];[0x1;0xee0eaea48538a;0x4f7c382a2b4c;0x3dbf92b47bd46;0x8169225a60d54;0x846b28953549a;0x1];[0x1;0x28826eef1fa9c;0x4183a39f04a24;0x1c29fea881993;0x982f882234377;0x14c424fc02813];[0x0;0xba29ba564501a;0x7e52979a80380;0xf638e6bf39b0d;0x82f221cc7f377;0x7e14c6f2a6c62]];
 [[0x30c760b7e4424;0x72cdb44efc70;0xe476f0f48b593;0x6ef8bfaf2579f;0xf09547ef18e];[0x1;0x2f2126cdf9d44;0x8e6e88a212c45;0xcc9c47410f48;0xe37f70d24e350;0xff4b1b3ad8f27;0x1];[0x1;0xa895b0fed7df0;0xcec484764992b;0x630ec8c276062;0x5c76aa94ef8c2;0x1bcaed7af98ad];[0x0;0x42a8a40859cdc;0x713a920fb1c0d;0xb0443bd667165;0xce5b2bef53a82;0x18ce4a98d9c35]];
 [[0x5f907b168b5b7;0x8e4c3441a63a5;0xaf94de05050c6;0x650aed282b72e;0x5a4e045993f6];[0x1;0x4fa2ef7bfffd;0xc3b5255f5ef61;0x55aa47bbd25c1;0x2fee5e513528c;0x6604c66d7f106;0x1];[0x1;0x5ef533d07795f;0xcd9ab6b746ba7;0x1d423fcffcd19;0xe8038f07f8014;0xedb21f0690dd];[0x0;0x2742278692c88;0xf30597087240d;0x38d5112dccc46;0x9fc41e2c73d14;0xb93a4c472f6c2]];
 [[0xb162c2680ba75;0xd6a5a0f557c4e;0xb68d9284f8930;0x6824acaccf7a5;0x5c01e79e83f9];[0x1;0xee25dfebf0e64;0x5ce0fd73ca92a;0xac717847b4520;0x7aba14d35df2f;0x5fb10780f9dcd;0x1];[0x1;0x9f10c1866e037;0x2c4726c0c0647;0xa1206de91e774;0xa26ffd798f8bc;0x420a42b10d5a];[0x0;0x2cadaacf584b1;0x7c1372bcd6ac7;0xc7bf8b4e4bcc2;0xd15f16e667130;0xaca9f7abe6360]];
 [[0xc3e849f8d7ee6;0x3a61eca5cdab5;0x1a8daf8895540;0xfc638dae8fa4b;0x7ae6dc2f313e];[0x1;0x60cbb1c373af0;0x6a0389691c2d8;0xd5f5e194784db;0x62f0f6ec1cd67;0x14e1886e1837d;0x1];[0x1;0x68ed49250941c;0x5f68a68802026;0xdd6d893b774f6;0x744ba180d0d1;0x367defe0e486];[0x0;0xf507fdec3300;0xfa7e25b00a380;0xa22970f760d07;0x450f1136bc4ca;0xede3a0846cb76]];
 [[0x2e23ea293e3c;0x230c3d7a3290e;0x89f39e8548337;0x71f3e4c0771fa;0x3950368f3256];[0x1;0xcff0a8a68471c;0x1b52401089a4d;0x7e76530fc21c0;0xbb0061785b043;0xa85f55da72e6c;0x1];[0x1;0x623c9681934f0;0x169602b716787;0x15da1622f0f06;0xef2bce931c6e8;0xe9fb37eae1ea];[0x0;0xc477f8da68490;0x421bf68b3bfb;0x2945974a18c9;0x3be64d8587312;0x6d6a5640c8560]];
 [[0x90bd0098acc8e;0x69abf0bbf931a;0x99c93d31b5994;0x3c48b908ef85c;0x1a06e0002f5e];[0x1;0xb7bec3f4a4444;0xf023ee52b0879;0xfa3a23ffe7d6d;0x83da399292bde;0xe50d678c0294c;0x1];[0x1;0xaab62714a11fc;0x865f3cd87ab55;0x226cc608ede70;0xc5f67367d2456;0x193d23c0e9fb6];[0x0;0xeabbf9d95a3a6;0x43012a694a738;0x8ff474e577c21;0x982409d7e29f4;0x2336af6941eea]];
 [[0x1c3195e60941a;0xad01e6b4dfe0b;0x663536b5f6d06;0xed5c65d66275e;0x1b0660010c46];[0x1;0x239f26b32f824;0x9b7cdb775b585;0xbde3afbfb7910;0xd826c512b1ecc;0xdd212112e3b69;0x1];[0x1;0xad09de062f81c;0x84fbde14935e7;0xe529b7b08f405;0xc5f261b4542bf;0x1df397fdd1345];[0x0;0x949c1569dd87c;0xa847e5120e13d;0x54aec5869104c;0xec8f07e88f7a8;0x23a530c055968]];
 [[0x6dea8795455e8;0x58bf90b680b12;0x91876db534f7c;0x6f5ad07aaa4c9;0x5f0eb47ddbf5];[0x1;0x3bc1c00915788;0x9a9f26dd362ec;0x783fced8b46ed;0x6a7ce8cb21f5c;0x5858e2b230dec;0x1];[0x1;0xc8692226749c0;0xfeb92a01a8687;0x40fea3b05a423;0x5d4b57ac96924;0x18759a8080e78];[0x0;0xc0b3155ace8b0;0x15918f942afa6;0xc02d9144bf65c;0xe284341065392;0xb6a152c42eed1]];
 [[0x7a3af554b1328;0xcabe3cf816d3;0xd3bd2bac362bd;0xc0c33aa3765;0x39c3d17c44ba];[0x1;0x5d26c1527dfc0;0x8668ecd548a7d;0x38a5fb2d1c968;0xb5d24b093c195;0xa4344c9d8fed6;0x1];[0x1;0x2d081730bf5c0;0xe879b7e5eb1a9;0xca80a07f9bf87;0x7ef0e875ba159;0xdd03c0337817];[0x0;0xa7dd8eded0f58;0xd9b79c99b7df7;0x6028509b2ed95;0xdda962cb6acd;0x647ee7d140492]];
 [[0x8dcc8bfdd1707;0x864c60c0467fb;0x2a6dbc27b699;0x19d1efc919be7;0x4c1e1727f3c];[0x1;0xe883ce3e6d0a6;0x2da5d00ecfa16;0x8b5bafb1cb077;0x7c989a715c6c5;0x7a5d1f50c9b7;0x2];[0x1;0xefb8bfdcd61ff;0xbd7273761e9d5;0xe0e0e36e66de3;0x30ac778e6ea3f;0xbc843e29a7a4];[0x1;0x1264affc0d164;0x22f20f4241440;0x51c92f82b0f8e;0x4b934809f1f76;0x126128813fc4f]];
 [[0xc5184ad1360b3;0x9bd8dba01000e;0xee4a5223200b2;0xdd335f873adc1;0x1cb35996fd84];[0x1;0x553e7a9e974a5;0x326ec7c199fcc;0xb41730ff3a67f;0xd153e4b53515;0xd7c7494605ea0;0x1];[0x1;0xb16248fc39d87;0x324ce130de445;0x544c2c83db6e3;0xce2f220e7dd5f;0xcc4c47c37a64];[0x0;0xfb8268530d906;0x4d34363f37c5b;0xf11443f8865d1;0x3f3bc91ea4efa;0x215c60e27e57f]]]
 (V [0x81a21810ca68a;0xe88adc867b72;0x21900a00b3a10;0x6a974f691357f;0x13ee6c419312] [0xd10426bf7ef53;0xda80f1b8a68b0;0x34941926e66d0;0x456c58ce97a8;0x77c444a8c219]) [[0xad4de85645e04;0x3cb05db5fc362;0xe8bb997c13a6b;0xf35d948945fdb;0x54942263842f];[0x1;0x9099d9c010634;0x2b790dd9038c7;0x989fdbe7ff175;0x7c749945d6cdf;0x50972438569e1;0x1];[0x1;0x40406afa8c2f0;0xcb42fc72d5f9;0xd16420ea27d2d;0x718e7dd92ecf0;0x1137374116f9e];[0x0;0x3dabf24b0c288;0xacb3c5bacfab5;0x66cc04ad5bb2f;0xcfe05c17c75fe;0x927965bc1e0df]]
 [((V [0x5671d7962ef91;0xeffa930eef73f;0x20f18acb204a8;0xdbca2a56e888d;0x29bb704b1b8f] [0xa413a818fd187;0xcfa7dca8cd083;0xecf541f337b43;0xefee7b2754224;0x26e6909a816c]),[[0x65d8d42df376;0x25609a6ce7009;0x82e5107d9f2cd;0xb33dc3af16818;0x2c3d6e6136cd];[0x8a41c55044871;0xc42661aa56718;0xafedcab02a2f7;0x5e6af1b2372d4;0xa13dac9d107];[0x1;0x523dac547fc5c;0x4833332a05523;0x5fef5f1164f62;0x8eed799206b4b;0x110d31553afb];[0x1;0x2d8f6efb723c;0xbecf175d3efa9;0x497a3153d099d;0x5c45dcaa7db18;0xe9ad3be62dd9];[0x1;0x5430557d0845c;0x17c57237164b;0xd6e6cb02b5b2e;0x5aa1919e90582;0x93e6383e19e4];[0x0;0xb709a428a7cdc;0x3a07ed83956f7;0x8b1398bd181a1;0x40a158ccebcfa;0x46f0ca01d97d7]]);
 ((V [0x126782d2436dc;0x4b5c2d2ebeb5c;0xce9f09a0dda4a;0x57ec0c342c0b6;0x7e71f06a31ed] [0x757994f69e092;0xf79b6214f6554;0xb7c871102e45a;0xd58449bd239e6;0x68037763b1ba]),[[0x143b98b07f7a3;0x479951e71cd25;0x80cc48b8fd124;0x185f65b9c1c69;0x3086beb28e1];[0x1c6171e47f899;0x21be2ab6f1c3c;0xceae67a52ba44;0x833b6973696dd;0x1b83c00655a5];[0x1;0x467a21adf810f;0x20d053dece094;0x3bc20a0f79b2a;0xb90509ecc28b1;0x296c59a20faa];[0x1;0x3919a1decb5f6;0xb17471217dd02;0xcb9bc4758abe7;0x970c8d9b12ddb;0x1a33e92f44749];[0x1;0x5131d2a9726e7;0xafa15c842ae3f;0x775643c9a794;0x9d58c0bf567d3;0x1a3bf3c63f3cd];[0x1;0x91e478295168e;0x7c75599015331;0xe548183ce6a1;0x34177814ded40;0xbbc000810efa]]);
 ((V [0x71ff64653b6e5;0xbe769c1c9f0a1;0xec770f826f41f;0x642f0256c73e6;0x16c33c9f2037] [0xb7aea8282e774;0x6b950e4fab64;0xd2b14e7b77621;0xed97a00e5f13f;0x11a13a0bc948]),[[0x2a38340fa1916;0x663f0fa41fa5;0x81641c364da65;0x4a608753daf6d;0x3d5070427b89];[0x41588c732d6a1;0x2dd9dcac2c54c;0x7dc532cb3d4d8;0x66f8df2ab515;0xd4e094c0349];[0x0;0x9d24f5df56a10;0xa7ea9f492a5cc;0xa4dba8c2472f8;0xf29da72f2851f;0x624ca4254ac7];[0x1;0x6a285ff895f68;0x8a4487d1c9e6d;0x9e965de4d39ca;0x89fa0b8e66897;0xec2e2f35b46a];[0x1;0x8b5dfb2b298dc;0x6d84a4eff6d50;0x31acb8aa92f22;0x66d51ce11a946;0x209ef5d5af4d6];[0x0;0xeb86dcf65f130;0x7ae3cbb7ab82b;0x9b0e430e1cb96;0x524f251d30b7c;0x725bf7f80d37e]]);
 ((V [0x6a1d1ecc250c6;0xf56840023566b;0x791f1499b84b2;0x94c1ffb2ca094;0x293182f8d2f5] [0x1dece42f60654;0xe1842199d8aa;0xaf3350b1ed53e;0xe980282dbef3a;0x639af6040e33]),[[0x167ea1b2b7b4f;0x3ef4c8554a916;0xf2cd48a65076c;0xb040aa490a8b5;0xcb80e5618fe];[0xe758e6016f473;0xf7fc8e8073075;0x83ae78a170aef;0x4d14ab87cf6ec;0x6dd7ef4855c5];[0x1;0x41bf33c0ab2d7;0x4f1a8ef3d3352;0x5cb467ebb143c;0x72edef61e8edf;0xd7a397ef26eb];[0x1;0x69cb777df82e8;0x2c0e58d1c034d;0x2af4bdb0cda82;0x3e361b4289daa;0x38f8ead55eec4];[0x1;0xbd53f44a2bacf;0xc629490c3655f;0x811cad2f9e3a2;0xd97dd3cf4125;0xac2c6d14c8f6];[0x0;0xa7c38e6f05790;0x88b8d774d8179;0xded7cc578237a;0xd6fc86e6bdedd;0xb76ca1cb8ac5]])]
 [[0x225d99a7ca07e;0xb85f158519731;0x4caed6b5fb04b;0x4458cdb92b14d;0x1d139da4168b];[0x1af18e8376f29;0x92424ad2cc3ae;0xaeda021874110;0x2878d36a066fd;0x3e330c4a4261];[0x1;0xe58540c81699c;0x27742a6dcf308;0x329f3ecfb5aa1;0x2969d10398246;0x6f244d865118];[0x1;0x7f913104f5650;0xf5c8c9a0aee3a;0x61728fb803cf;0xd4e34212f2de5;0x247f18aeb2af4];[0x1;0x63fc6e3bc8ebc;0xcc3a20bdc5cc3;0x7424dc1e5ddc9;0x8898a3e68d762;0xe2a43cfb899c];[0x0;0x14bb60c2452f6;0x1def3cc34d740;0xab5a4a3158ce0;0xb96f88f62341d;0x23038947607c8]].
Definition wit_Test_64_1 : colwit ipt wit := mk_colwit (V [0xde47d928b1085;0x554e9b78d411c;0xde6aa9f6cc0bb;0x5ea4ee5ca3c3c;0xa74f77d11fd] [0x323653d231138;0xfaf2180b2115c;0x129c5fda38278;0x1e35250203f3c;0x2d2425945b89])
 [[0xd6c447e9a46bc;0x5e8891b38ee28;0x33fc01a1fd74d;0x559c4b2ce323;0x420120946f23];[0xcc81a9a4b58e5;0x7a937c6d9a3b9;0xf496897520f0e;0xc245efbd87673;0x5a08c476a325];[0x1;0x51884578c273c;0xd7b09b342915a;0x9a71e2e0705d5;0x8bcd2594e400c;0xaae942097b8a];[0x1;0x48d37535fb450;0xe1552ce40acaf;0x5ddcac3db2392;0x2ac618040e846;0x2b4356d410ca3];[0x1;0x392260f3638f0;0xf43cbb185008b;0xace54aaa724da;0xb69782b56d674;0x7bd2f46ed474];[0x0;0xc3074e9363848;0xcc0dd1d225c7b;0x5bab1613d2f0a;0xd208b278e78d8;0x76a72a3720eed]]
 [[[0x39797afb8306c;0x1043b05063945;0xaba6cf68585fd;0xf98791cb12a2e;0x5d249ed416b4];[0x1;0x494ff67400c10;0xe49ddb1258485;0x900a5bf25969a;0xb03538a1c3eb5;0x4a0303e980b44;0x1];[0x1;0x291171c8f0d70;0x6904baeca3293;0x714ca13bd07ac;0xc1abf5d3a947c;0xf0442dc46543];[0x0;0xca6ffc4e34f8;0xcf43db4c8ab7c;0x7e13c64f8c4da;0x101c3c42807d;0xa6973f33fdede]];
 [[0x898a4a0953e1c;0xccc8d546dd934;0xf4a4ca2210f18;0x6dd425329351a;0x7151130f4b5a];[0x1;0x3d1fc9d6f0d14;0xb61d795dbca6c;0xb0ac1f73ba9fc;0x2d10b00271f6b;0x27e6a12990eb8;0x1];[0x1;0xfbe37b485aff0;0x157b0c1a337d9;0x6be0c9e2ab678;0x1cc30aa93e58d;0xe9783c8dc6a8];[0x0;0x7aae19faa35d8;0xdf489136c7acd;0x25b5ad1cab1cb;0xdd05f7e547e0d;0xd530cb8efb86a]];
 [[0xd3fcf234dae95;0xe06d3a79968ae;0x4ee557f068fab;0x7f298d70c0108;0x49df83dfb8dc];[0x1;0xa5f7d91e6e2a2;0x403e1ba482d69;0x4dc4e18174aa3;0xa85d9f1f2944;0x70215b558b6b1;0x1];[0x1;0xa59b50531b2f7;0x1c891ba829995;0xfdbc726da00a5;0xed412a729fd1;0x66f323567a0f];[0x0;0xf815f6fdef706;0xf17a5257890e3;0x157870d4314a9;0x6418c2f484f00;0x7e903cf700026]];
 [[0xc7f2a65b3959c;0x9a0d130215656;0xc586aebdfc21c;0xa1ee04584f761;0x7fd38d8137b];[0x1;0xf10131b1037ec;0xd9bfbc615472e;0xe54fa1825f788;0x7dc0e2809b795;0xf8b476973eaa6;0x1];[0x1;0x5f5b990e70bf0;0x7ed435e2836fa;0xec677dfd18306;0x3d79fa6a5ec0d;0x107be4712675f];[0x1;0x29930c4a454e0;0xca86ee712efc5;0xe4ba0c59f1c93;0x566658190ed40;0x96deab61b360]];
 [[0x4326cea2dd433;0x2badbe8195c95;0x3cfdaa553db48;0x2678a67daba2c;0x3ef8666deca5];[0x1;0xa2011880e2782;0x1005859314e4a;0xe25bee9f188fb;0xdd9618b5c0fe0;0x89a51fd33fc05;0x1];[0x1;0xa7be0b4f5c887;0x17b55b5d9391d;0x195a10f91e6dd;0x366a45dbae05a;0x1833b2c30b385];[0x0;0x1f0d743628841;0xca2321145c75d;0xb96427e5964b3;0xc662e26acc5bf;0x6bfb7a6efec4c]];
 [[0x7f8c912be3db5;0xd0e767bd8a3e0;0x5083422a9c2f8;0x55412e992e3cb;0x24b0797dded1];[0x1;0xf099d4c51798c;0xd710bfa81c7e9;0xe554df3b222cf;0x130b8347fd3c9;0xc22d36b03ba15;0x1];[0x1;0xa01d84a06fb7;0x8e12323c022d;0xfd010eb94cc51;0xeac737c8154e5;0x13f43bd91c60a];[0x0;0x453bceb37e673;0x18ac4e38a78a6;0x510c50586d427;0x2908007e861;0x41b63e24ab6f5]];
 [[0x4c538924a4a6c;0xe94425ccb0c23;0x81a9abd51e3d1;0xf9bdf0a94e90e;0x47bb65d5ea8e];[0x1;0xfb78d8c9f75c8;0xdf4dde231cb2b;0xb8f4be7c369e7;0x8b172f51847d2;0x824528f4ae771;0x1];[0x1;0x33f51e8121d70;0x19ed2d6bef81e;0x8366062d59ab5;0xb397b6b7f8c56;0x7b8795e83a65];[0x0;0x4e79cf9883b2c;0x79c1e2d9088ac;0xaefef250e20e2;0x50d31e55fdf36;0x911a7e377c752]];
 [[0x40ebd5e0fc76a;0xd053e884cfcf0;0xbcbc39a2d46a0;0x6d81542a7815;0x3a851065651];[0x1;0xa494ded3f827c;0xc94fceff7791d;0xb18eeaaf844bd;0xd014d9d6efea3;0xaa2376271c09;0x2];[0x1;0x5a02d58cbcedc;0xa135db37b46c7;0xccc2634cf52b9;0xdc44bdff45bcb;0x551116b52d6c];[0x0;0x46fbf45fdc62a;0x42f29698b461a;0x5be230976a195;0xed79b716b5a1b;0x234d84f363be]];
 [[0x9873ba56629c0;0xbcabfab3082b0;0x14f167cf30f47;0x30a65f78606bf;0x41b944c47cd3];[0x1;0xc6c54a3892a80;0x3ed21772d58e7;0xbcff1ef332cfd;0x58435acfc150;0x8ca389302ee04;0x1];[0x1;0x638a3e2b3f000;0xb7ade8dda3897;0xb8589420417d4;0xa2d8d3cf892a0;0xcc4e69c9a145];[0x0;0xe2cc767f6be80;0x588218634cd0a;0xf2c6606d4ff15;0xe5d0adfc9cf11;0x7417f7eb5a3bc]];
 [[0x418327199ac28;0x80ff4336c6745;0x85c63aab28592;0x444ee5efc9629;0x49c5f9d03feb];[0x1;0xa079d776041a8;0x2d4dc40608279;0x819fbe305afc4;0x302595869f006;0x7097a57e5516f;0x1];[0x1;0x6f8a8798c25c0;0xe00ce4a75e3ed;0xeba3b37437a0a;0xa8bd25786161b;0xa2c2356589a0];[0x0;0x88ab5e3b9b680;0xaa970fb5b97d9;0x43624ef7ddcd3;0xbc1fe61165167;0x88c4ce616c2d2]];
 [[0x7c9f1b4b5954;0xc69b8773e225;0xeb824a0b1c817;0xcfc473be416aa;0x31350b30d254];[0x1;0xa2c02172004a8;0x8092766e82b53;0xa6d84fd612ff;0x3f0d4ec08290f;0xad6c2d8a5064e;0x1];[0x1;0xa2c8a0d8e5770;0xd0bef61d460d;0xc617f07290bf3;0x391d77af28943;0xb21f54dfb409];[0x0;0x5d19d7f1cd7fc;0xbd957b8576b0e;0xa1dffab7af2c3;0xa57704ee617a0;0x555e415de95a0]];
 [[0xb9fa03abcb856;0x396ff762b4d94;0xcfde0a19ebad8;0xb299d28bfb227;0x14e6a29ec987];[0x1;0x7f54e554947c0;0xdc23258ff91bf;0xb4919fd20345a;0xd9035160edcc8;0xdf9344cdc64d5;0x1];[0x1;0x9eab1786df9dc;0x5992445c9b40b;0xe2e54f04724b1;0x2746a47feeb93;0x16fbca1cde169];[0x0;0x743d17bd3c0d8;0x5dab012f0a75b;0xf449c0fac2049;0xbe7cc69dfb5ca;0x110df2c58bc43]];
 [[0xdbd2e8eea07f6;0xde170c8e1b03d;0xcc55a159a2820;0xa2b624794488e;0x3efaeb426a27];[0x1;0xabd653610ab1e;0x9313eb878965c;0xc5ff433e2d8cc;0x67b71b34689d;0x880eb60d406a2;0x1];[0x1;0x9b4f38ca77e5c;0xa468fa52681bf;0x1faf87f8793cc;0x97bd636084742;0xc943afa23031];[0x0;0x913a5cea6fb98;0x3b434e0249332;0x4d8e8b85b10de;0x6d0606c7e4957;0x751d5c055b1d4]];
 [[0x26ef6ea115354;0xa726cabf68df4;0x52422ad2850d5;0x4340526f7ebf3;0x162e53e507fa];[0x1;0xc8ac56c8b8008;0xbd7e9820a27d0;0xadccb86943ae3;0x85ccb1763c3a7;0xe6de235748ed9;0x1];[0x1;0xde6b5191d4770;0x30e1361d55bb8;0x3b09559f5eb33;0x5a91bc8f7d074;0xd8a6126bbe88];[0x0;0xe6defbea8ff70;0xc4e8c8275f3b6;0xa30953bbd6408;0xdc9cc4eae2e0b;0x1fb32df01f7c2]];
 [[0x27484f4ae8262;0x2e958a130b640;0x4b58f7a9e7291;0xf1af052218fcc;0x6094d56dab0f];[0x1;0x7b2141a3374fe;0x139570a1de59d;0x2bc48d3edf3ed;0x91f0a4664a520;0x45e72abe31c89;0x1];[0x1;0x804ad8de2073c;0x89707f567216e;0x9996883224e26;0x3370df97a65ac;0x14105c9e5ed22];[0x0;0x60fc864b0113e;0x9ba3ce372cb51;0xbd12bf7f187af;0x948f88cbefa58;0xb4fa31ddc9f61]]]
 (V [0x19426e1e57d04;0x671f3c71ed26b;0xdee4c1a30195f;0x20cfbce0dd4b8;0x294c03b4dcdb] [0x38b0691a3c32c;0xf45afcc114bfd;0x518524caa3653;0x6784f9208cae8;0x359c8da23105]) [[0xc958830f1c771;0xd7b1483364c8a;0xf5f63d00e59a5;0xa7668ced0698;0x45f3846b34d];[0x1;0xb0208fd715354;0xd4b4c260e9924;0x5c04111aee073;0x97c802d1cac73;0xe356023ce650;0x2];[0x1;0x6eed224dce54f;0xa4be9b610e05b;0x37052a92ea432;0x5343ce76b3ff1;0x15c704803e3ff];[0x1;0x794a696b49aac;0x2303a02e00d96;0x783b3d044ce06;0x1a1dfe70774e5;0x3141b5bb42fb]]
 [((V [0x9928d9724621d;0x2b466cb07aa6c;0x47ba1ce563f69;0x7a2707f03b299;0x114467c5933c] [0x7662d1ed41bef;0xe45c965937551;0x7a84a817388a3;0xc3a494468a5e6;0x6a01286db057]),[[0x28ddc5cb90d;0xa3ec9bba664e3;0xdce73a9a72728;0x24294ed7e6a06;0x63abf3514134];[0x41229ca8ad02f;0x8de9ada4e122e;0x5b3c3c54c20d9;0xd0e3540c535d2;0x3e20bb30904e];[0x1;0x6e0ff9a614af0;0x81655b71b015a;0xf6beae9b57ca2;0x82a1b17f90e4e;0x6eee96dcdc3f];[0x1;0xb310b0696b408;0x5b2fa95bcf80b;0x2f8497bb716e7;0xce04a82b20aa1;0x221462def9623];[0x1;0x6454c1e179807;0x15fcb55066202;0x96c1232a61d28;0xe125de8da44a1;0x7a1bfafefd67];[0x0;0x4bfb83d9c5b58;0x76e1d0015196d;0xdb9b66c08207e;0xfc19b8d5053f9;0xbaca51bccbcb1]]);
 ((V [0x6a38724f12cae;0x56425530fdc9d;0xf39b2aa20ff39;0x6a0d27692396c;0x4df51cae771b] [0xd2c190e916e6d;0xe222693b7a045;0xaf0b1cda57db2;0xf93bc2aa83274;0x24ce6d7167ee]),[[0x1075323abe0bc;0x360605bdb99e;0x2b11357184a33;0x338428207adea;0x4716c0685ea5];[0xd17d904c030ab;0x1763bd0a80045;0x2299b737235ec;0x4f5a96e475be3;0x767849180777];[0x1;0x5f631e5c46967;0xa9b783dd3bb64;0xea1e97865a0b5;0xf413d218d676c;0xea9c4210fdc4];[0x1;0x3848ea00e6278;0x80106d038e153;0x12e20c2fc587a;0xc9f2b3e106b4d;0x35112bea03f87];[0x1;0xa3ee090b908f0;0xec8e1430ccbe;0x196fbbe45ea08;0x7dbc6fa5b8571;0xb98096f42d0f];[0x0;0x683afc346a100;0xb9ee5c5c56ef;0xeace207ceba97;0xeaccc36bb8480;0x7ea9ad3c33080]]);
 ((V [0xce0edbbd4eb0f;0xbc7ea6ea4e68e;0xc0d33781287d1;0x9f9d2a7e36104;0x3c22f1b2a41d] [0xe925d66a44c8c;0xacf670221c052;0xa096e93f33534;0xecc41a503b6df;0x3145e98830ee]),[[0x364f0c02e695f;0x2a86ce5dfdc1c;0xb09687f1c1166;0x740652df8fc9a;0x7f81513c1bc];[0x48d75b535b127;0xe5f337da7506d;0xf80ab9fb4016c;0x75adb335842a2;0x1896ae6ca056];[0x1;0xee979219e527c;0x5d9116ce46380;0x41fd9684a32c;0xb8e958e296f60;0x1b2a0f78712];[0x1;0xfce2abf830e3a;0xe88f08e73ed59;0x6a75c9625d3d4;0x49df59bbb183c;0x18ef2d68c2a99];[0x1;0x8898ec4f115ef;0xea0cc06935b3e;0x59f74e040ef60;0x11de29cf7c0a5;0x1af9b52ff4b71];[0x0;0x5a2d926c2cb10;0x7c03361c5641d;0xd5e3ad007878;0xa94070e5e6d35;0x5bee1215103a]]);
 ((V [0x951cca1ab790a;0xd712fe934cd09;0xc6aefec6c2100;0x52bf4c7792bc7;0x2feb9f866f5b] [0x8d7472949391d;0x1dd492ed6b79c;0xbd3c9459eea8a;0xe7acf6f208eaa;0x7e341e1c69f]),[[0xb857264377fe2;0xd29503fd92390;0x705156f1c9949;0xc4332d288f511;0x2fe7c4102784];[0xbfbc649a114d4;0x87e9d8ed59c4c;0x2ddf334bd870c;0xedba590969776;0x4e6ff6a186f0];[0x1;0xbd762f2dc4a4f;0xd51e4fcf995e5;0xc07812a3b10e9;0x3ac3bce23c337;0x809f212164bb];[0x1;0x2f8cb4fcdd9d0;0x5d3678ea4673e;0xf0ec0cfb1d059;0x34a965e0bc45d;0x2b1be00ffb30d];[0x1;0xa356966a5d13c;0x7d63118fe0544;0xc99071d94fc29;0x8598fec5fdb8c;0x13e752e34bb87];[0x0;0x46bcdae1a2dac;0xccf452f8e8ab1;0xb48544b0c64c7;0xadb6cb77c4784;0x5bf205df9f0a9]])]
 [[0x45f49ce50a98c;0xc6e988216f40f;0x25e41c948d789;0x24c5ed9ebc411;0x1eb232e6784e];[0xb82435d14249d;0x9924c94959ea0;0x211caa34e2cfb;0x5be9ebd4f7664;0x6060c29463c9];[0x1;0xab90dd4382a5c;0xb60a0a78a25d2;0xba6604ab68ac5;0x39e31b6c30ce7;0xaed0ca45855a];[0x1;0x94dbd8a1778c8;0xb447f07eba5ec;0x28cd5f982d9d6;0xe28f8511005be;0x33e7c124352ab];[0x1;0x250849f70e670;0x2e48ad46b7265;0xea94bc832d165;0x1bc99b25b587c;0xbf30a82e522a];[0x0;0x350937dff4004;0xf95eb6a5fcaea;0x9e95f64e69aa1;0xe453895e9228f;0x2f0ae37360d02]].
Definition wit_Test_64_2 : colwit ipt wit := mk_colwit (V [0xffb352f466059;0x1595923eba274;0x33b98c4c40af2;0x26351ab2684c7;0x20b63dd7ffc0] [0x253b47bdab87e;0x13dd4e856dec7;0x2ab2eb9544035;0xe3c4be56b690e;0x6a2558658693])
 [[0xbe56ade85d09c;0x74100303744de;0x935b0527f809d;0xc86d69bf68c2e;0x1de3fbababb1];[0xa17bb8bda68fb;0x655585f44f2;0xfaed226381197;0x15909537ed9ce;0xfb4dc65a079];[0x1;0x6f2e7bd3c0000;0xf00b49591050f;0x4cd9c67e3e2;0x43637d6e841ea;0x1f521ff97180];[0x1;0xcbf946cdf8e30;0x33c1f029d82d2;0xa210ba9e361ce;0x3e525b9d56b93;0x122a607a990c7];[0x1;0xe9270dd2ba3f0;0xb04e2463b35a1;0xb151d6cb3608b;0x8157598cc89a;0x482eeba226b6];[0x0;0x1b1d978185520;0x6b8605ce25a7b;0xb191e979dbfa8;0x880d12cd0a845;0x20013a589ad45]]
 [[[0x1fb20c7c22ee7;0xcb565f2486f21;0x751847c2e2395;0xcc5aafe28802c;0x38f3ae5f838e];[0x1;0xf34216dcb47ba;0x869c689799b05;0x862b44262217b;0xe71516517848c;0x970ab8f62c20b;0x1];[0x1;0x9646713bdfbbf;0x426fe2d2a9d29;0x73e342327819;0x8eb2935d8e207;0xab285c110ea8];[0x0;0xd2a858c62cada;0x1a2c4f30f58a9;0x5c83dea07ed07;0xf9b6b6e5e88a4;0x5616de2d3097c]];
 [[0x58a2fdca5ead3;0x349e639c193a8;0x7da4c450f7bf4;0x5b00ac085a5ee;0x531e6b0af2a0];[0x1;0x9aec0c22bbf93;0x6f83fe4656e8e;0x61e8ccf93128a;0x241b26ccc2922;0x653c25a9865c6;0x1];[0x1;0x180c37dec94c7;0xd02d58038dc13;0x64135c88c68b9;0xcf5a646f69d3a;0x134e5b056a5d7];[0x0;0x49ea41298b9f8;0x2cc58f02eeed;0xd2aae93bf7681;0x608c2aebd8c48;0x98629cb3fa232]];
 [[0x88a566eb8ffbc;0xdb10b5332366b;0x9532fbff665c0;0xc1d77d568c289;0x4c036acdfe60];[0x1;0xf6405aabdfc98;0x52d3467991f64;0x48561aece5283;0x791daf3d7669a;0x7e3ba1ba5db6d;0x1];[0x1;0x16564f98400f0;0xea3b5fc70bc40;0x1e1a5f9ca42f6;0x352e38426e33d;0xc535ab35ff56];[0x0;0x943f5387a661c;0x3fb6d0f49e763;0x36a4d10ee98f1;0x6eea2ecca4157;0x8e66e62b88b6d]];
 [[0x5638ce1f23eaf;0x835dabe637bea;0x2c2f29f368085;0xf4aac5fd60e01;0x64ba7edce2b6];[0x1;0xa369cdb0854ee;0xf17a84a68712d;0x49a818cd04a09;0x3c9ea997d4a87;0x3ebbd90ae7267;0x1];[0x1;0xec69710e4fd8f;0xcbe3674103dda;0x985777b1b161a;0x117eba9a45b80;0x9b0ca0a6e933];[0x0;0x6ef79a5752999;0xfe09e9248118;0x903f0333112a8;0x7bf835ae482f1;0xae8ed66c35c6f]];
 [[0xdf638753092ed;0xba06745480327;0x3dde358493b6a;0xb54859afba674;0x3fcb230bb965];[0x1;0x169a06e9f182c;0x5832fe6d10220;0x7189010aab046;0x851d7a89cee28;0x8b4a20c916dcc;0x1];[0x1;0x68275188f5747;0x1dddb3c5af000;0x5876c2b20984c;0xbd1a029a2ee15;0x16592d46fc427];[0x0;0x3b925d7fbf6d0;0xc3f76b083e65d;0x14484911a9a21;0x59c46b5955774;0x6e02c4d838e56]];
 [[0x81b8cd28e0180;0x318a6d5a153b3;0xfc3d51673357d;0x85d9c2241e71f;0x58db6daac4fb];[0x1;0x578be69bd2380;0x9f5eb5532a82c;0x48b6ac6377a19;0x4a5c3cf669c5a;0x6251b405d41fc;0x1];[0x1;0x634075729c000;0xb565b8ab1b083;0x1a29ee8b9855c;0xa8a762c0536f4;0x11d0aeefabf98];[0x0;0xf685dfe745b00;0xb008e13cfde47;0x94ec3c0bed730;0x5ed587f4c291;0xa5378590c5934]];
 [[0x98d5370fc8fef;0x4340a3ec594cf;0xdc5817f82ef0d;0xa93ce5cbaa990;0x4134a7a738b6];[0x1;0x5770444e69644;0x777b44f3d73f3;0x9cf04adf62919;0x446eddbe3d293;0x8a8faab4a3774;0x1];[0x1;0x2500722e0e00f;0x18494bed07ba3;0xff52979104c18;0xecdd344ef463f;0x1917d10173a46];[0x0;0xef4c98abba86d;0x5cea693a6ab0b;0x8ac2c56247e9a;0x3a9f0888d14e1;0x7305f67610258]];
 [[0x93a394badd19b;0xdbbb8acd0812a;0xad4ef2bfdb5f1;0xcc8378a757262;0x57a1cf557edb];[0x1;0x5192388bd529e;0x58365807904e2;0x404545227ae76;0x86145de5d9aca;0x680c6db712cf2;0x1];[0x1;0x6e5c8aeb1b7d7;0xf4a165969d0ab;0x42db4cd94978f;0x837e8e8d8768e;0x178a236fd2a94];[0x0;0x47194b93e5fe8;0x415ba20369e0d;0x3b1be6accdc02;0x3e244a11a104f;0xaa80e30a15c0c]];
 [[0xd788461d0b3a5;0xb6fbf80e37639;0x7b8210cb00e8a;0x89209283ffd38;0x2dbda90ac86f];[0x1;0x3a2ce5d0f600f;0xb695f5f8f1d0;0xb4645f91ab2c6;0xbb578a0a74884;0xb7178b5a6a677;0x1];[0x1;0xde09000215b57;0x9eaeaa66d3dd7;0xee43f37c1c1e0;0xb0b2dcdd9c1a9;0xc1753a7562ba];[0x0;0x59272d76ac880;0x8542f11e79fc0;0x36458ac89f875;0xa5ccb62217db1;0x4e82aa14239ba]];
 [[0x638e676083767;0x5d32517e36ce9;0x90318fb88338d;0x9789dd4c22739;0x4eb89439d740];[0x1;0x7235c42b8f5c;0x8eb7472aedf91;0x5daba4f1fe4b5;0x14b6bc8582e83;0x71872fb006ee8;0x1];[0x1;0x57c0ea2db4bf;0x372820f547037;0xd14db6b221c22;0x221ce7349e502;0xa9de3b4e7c4d];[0x0;0x338fe3a12e137;0x5ea905b10ca7e;0x9ca52df0868aa;0xaaf02cc372e1b;0x8e9a6be3d690b]];
 [[0x8d3141f6d012d;0xae72e504a4225;0x8abcd39d6d92;0x79f05487c22a2;0x25e397793602];[0x1;0xff06dc831dda4;0xe2cbc8b3dd916;0x5c5eef95cff44;0x5d714b1056b7a;0xc6aa12c32eddb;0x1];[0x1;0xf5718a3741cc7;0x27ded69f7512f;0xc06d0684b7c94;0xc90c0a4b222f4;0x100b4fd9d58d2];[0x0;0xa88c4728fb40c;0x8bb9c0a15e7d8;0x177aec652ac3d;0x437c4d971c4fd;0x3fbf15c624e61]];
 [[0xf61182e0bf190;0xd53d2dc414f59;0x4c4135525c10b;0x1847e206604ed;0x8962e8767a8];[0x1;0x9629dbdd70710;0x203e4a69f224c;0x85c396237082;0xa9106e888699d;0x5a9b3834f090;0x2];[0x1;0xaac1656bfbf00;0xaf4977ad8973d;0x6708e7feeb311;0x118cff9ee734f;0x111b3867455e2];[0x1;0x5eef25d89ca50;0x4049babe6c9dd;0x7110e5cb75e7b;0xe2e9220bdf152;0x5abef2fb32a]];
 [[0xd648a384de20e;0x9889c7d2b9cbc;0xec7c1fbb16b0e;0x83f47b2d0afcf;0x73273a24483b];[0x1;0x6d39cfd27eb22;0x86b059cbb977b;0xa06ec0c7bc62a;0xfa8a7ee675c8;0x25d4075651cf2;0x1];[0x1;0x8f9d709ced7fc;0x8875a132e6730;0xcd6b471302a70;0x6cceee6f88a85;0x75d8a8f9417f];[0x0;0x11b04a19e7476;0xbd21531c5abb2;0xa004feaea9488;0xc45ebf7f32b40;0xe371e2990bad1]];
 [[0x93761d31f5dff;0x9cc428582ce8d;0x441d19493eb2d;0x5d82c2f4950ab;0x7b3e58d02925];[0x1;0xdee7352b03765;0x26e0bf0fe62b3;0xe1f518905d0fd;0x35c1c11a68d61;0x1c1eb1db55293;0x1];[0x1;0x3803ba35ea72f;0x7e746002f6dcc;0xdaf3ff9af1b00;0xa96cbc1b91786;0x784c775d7231];[0x0;0xefdfcc58f88e4;0xdfe45facb65f9;0x42de59b1bc539;0x85cf899c734de;0xf4361d4964188]];
 [[0x89431d95d9f03;0xbc058b52cf66d;0x23fac953a2ed3;0x87084ffa5611f;0x3953f0cc8902];[0x1;0x23252016b3ae0;0xf557548f2079c;0xa06c45da158a4;0x79dd67abb0ba;0xa40a3918c0922;0x1];[0x1;0x61c9599e2aaa7;0xeccd145d027c1;0x30a81fcc07d88;0x6a8df054df527;0x16fad5256652d];[0x0;0x9385c5c8bd227;0xd9821c49210df;0xf6f8f8f6bc6aa;0xb58a1a87ebf30;0x64eb49864e606]]]
 (V [0x514f78a6296c6;0x3fbfedbeef058;0xb869c3d2d8c32;0xf1e79c1295882;0x3029ff10bbe1] [0x8c5df7ceae541;0xb2465354b1841;0x223da0204116b;0xd9b1c7f9d8673;0x36db52837ae4]) [[0x419c385b5f197;0x7dd03acb48538;0x1afcff18c5fe6;0xfdb1b9d6e72f0;0x4fc72e811cb9];[0x1;0xdb3bab20762db;0x5f72c3b79d2da;0x5673331f38940;0x24ae5080de59b;0x71c0f3c577111;0x1];[0x1;0x64faa0526871f;0x9abedf974267a;0x7c3cfc9457056;0xc0aaff5118e2d;0xe08e954cab67];[0x0;0x8312ecf90d8df;0xba1e5202d7961;0xf32832da4fe6e;0xae042bcf96307;0x924a2e075f657]]
 [((V [0xba2a90d0ed797;0x425f00879486a;0x7b6193b452ddf;0x26066335d22bf;0x2601dc908e79] [0x4270f79924011;0x885b086391616;0xfd2cfe89235f1;0x5d7476bc7accb;0x7d5c90e058ca]),[[0x11fbb79a4bd83;0xdff947124094e;0x1203011880076;0x90dc5d34913;0x75269fe622d9];[0x274bb03cedddb;0x826af3bca5d06;0x7ede948b31235;0x485411a48f59b;0x62345265b340];[0x1;0x8abb3fcd6a19c;0x6c2c6ba4388a5;0xc1842a4964326;0xfb329c0293d7;0xb24917b7769a];[0x1;0xc43ee63c2e09a;0x476e11b43914b;0x3a2f5b206fbd1;0xaa562a02219a3;0x2e8cfe042b5b8];[0x1;0x220829d2e03a7;0x1d66784a56237;0xbb7acb57af007;0x5171ab1a1ac79;0xa1730d6b9c61];[0x0;0xda2a7f2264480;0x29b512249b680;0xeb100e925b495;0x1d21cfdec65d;0xdbad696065be7]]);
 ((V [0x978f04963b235;0x41d4b9f0cc0b5;0x60359b33efa51;0xa3ada509b0e0;0x43c7ff1d17ec] [0x6ad10b8d4fbbb;0x32c09b399e228;0x67204864915f4;0x96c1be381ff87;0x327d9df8e12f]),[[0x278ef6fd7022f;0xb6cecedbe3dce;0xf5ceee41a42c3;0xefab7fc2dddb9;0x34871907debb];[0x22681c722d8e8;0xc9b15ab17e644;0x9f7620e5167de;0x7b7f5a0ac17e3;0x13001d1a17e8];[0x1;0xe11977892f31f;0xef304fd41f6d3;0x91bf88d44e365;0x4184af333eeab;0x1ab71f376ce5];[0x1;0x57f5cae568b62;0xddf192d7d0ad0;0x30780f4217dd;0x7c80795d8f613;0x10b1cd89d1b12];[0x1;0x8ba804d70248f;0x76eb911bc28f1;0x91cca16f98479;0x11e912267b887;0x10a091d8f3345];[0x0;0x55d89e490f6d;0x780fa42afee4b;0x79c6e7c0ff45e;0xa72309019d902;0x5597df17d32d1]]);
 ((V [0x7632f505c8d1b;0xdfd2b61b42974;0x257d809f5e22d;0x8a8e72b5fd7a;0x7a2c8b9a447a] [0xa037ee07da655;0x2495135de3c37;0xdc5e1da12b3f;0xd0be9dbc9b966;0x789826fb2560]),[[0x2b49a5fd12063;0x717162ebd176b;0x7164ee42a80d7;0x6286d2c540c06;0x597a6b80ebeb];[0x7deb19a1d7491;0x5a62027606aa6;0xda01c39ecd989;0x1321222dde628;0x53dcc1c38808];[0x1;0x817e5cb9ee2b7;0x1d0f3520a273;0x6bc93b0840186;0xb7af84a0e0595;0x83d4ebf76018];[0x1;0x50d2f4e7d41be;0x3fcee008118a;0x83c41bbe298f9;0x523701be30cf;0x2b09546a23b26];[0x1;0x3574e7f8d8a67;0x73dfe5f5f3145;0xb092ab0d0e723;0x203ed72aa12de;0x1c4ec61145885];[0x0;0x1f2454e89b931;0x9973770584f2e;0xd6b399e8682ee;0xf1502900e7d3f;0xa0c96628295af]]);
 ((V [0xa1ee1e50cb902;0x497e4bd02c07c;0xcde27e661ba9f;0x3e3d8e1837a87;0xd9c18c719c5] [0xb63bb79079355;0xbd25cd825f563;0xd17df2e52e46d;0x66d0d8fb0c278;0x583ba914be47]),[[0x5edb365c8741c;0x435d153053931;0x7bfc2c35c4ebc;0xc7e4ce12be896;0x8ebb7fe6367];[0xccd8c3eb3d314;0x179e3a2f2a908;0x5d7736457b102;0x2883dd4d5a57c;0x32bef08074c0];[0x0;0xf4f24c032529;0xb65f6726d9bc5;0x2bbd92defa39c;0x2a062744b1dfd;0xf1f189dbb59];[0x1;0xf48da26aa19e8;0x858659f3c0f61;0x4beb0654c554c;0xdc103d8119984;0x21faa74c1cf07];[0x1;0x974aae3acdff0;0x209f8146c65e0;0x739fed80f8ba0;0x474092507b606;0x2034b36e0d675];[0x1;0x44a23f77958e8;0xefb2d57febf84;0xc58adeea04eec;0x756072a9786e9;0x73b3f3e6ad76]])]
 [[0xef461f676eab5;0xeecc0bf3f7933;0x210b735e2ec41;0xfcc9576d4f707;0x1688bb90d751];[0xacf3e2f1d4df9;0x7facc7663a4fd;0x1ca5ecc752537;0x347feb1ba1dd6;0xae56e4ce41a];[0x1;0x7059edd0f88bc;0xb8769a61a4e2c;0x81c69baa502b1;0xa837817b24743;0x14586934ecdd];[0x1;0xbef86335952e;0x149fa95eaa376;0x7241e0ae96b70;0xd944500faa87d;0x1224f9250ea01];[0x1;0x598898c452db7;0xef525cf3fbc51;0x45fb79c53b893;0xbc49d3ae88ed5;0x68cd40a17807];[0x0;0x54bc04fcccb88;0x2319119f2f48;0xc7264277a0995;0x61f76ca3aa336;0x176eec69b3486]].
Definition wit_Test_64_3 : colwit ipt wit := mk_colwit (V [0x4402da01cc099;0xcb9152d35d32f;0x541ccd45e2c5;0xf1e10c79709b1;0x399a5f43d6ad] [0xf18df340d07f4;0xc176edeabe59b;0x556da7a8948f3;0x33810d48de712;0x7847d7e69bec])
 [[0x7ba6a3881119;0xca7822e011e7a;0xf48500c072302;0xdb199847bf9e7;0x7f02aa589440];[0xc8f37fdb10b32;0x85a6786f8b0da;0x731354e2c087f;0xa5fc6548b8584;0x6c3b9174fdc5];[0x1;0x7d5367a6f3af7;0xfc4d501de789f;0x8d753fa0e5b16;0xdd56a65ce33d1;0xd2b3455a0eeb];[0x1;0x7bd744e0e21aa;0xb7e6d64e0d4c3;0xe48c88dbef000;0x6603c7d28a6fe;0x2cd05f66b8f4e];[0x1;0xeb8f618557bbf;0x54c53a074406b;0x71455282915f;0xbad28817d3a85;0x61d6548eb4e7];[0x0;0xc07d290c4d05b;0x4ba01ce573358;0x5dbdc0eb1c924;0xa9619e9ad360b;0xe92bd2fc3491e]]
 [[[0x673d04a3499f3;0x484f3356ef4fe;0x31ca37567a814;0x6d9859884d89c;0x34495fb4ed6c];[0x1;0xddc2fe21ccae3;0x9ce42be509305;0xf7a37d4210eda;0x9dc59c8b4272d;0xa68d42a277edc;0x1];[0x1;0x1ab5131886607;0xd8c8de9d268e1;0xd4c0a2f998ecf;0xb59a3b9fcdf49;0xf41979be0411];[0x0;0x5afb462729d76;0x8ee97db53cd04;0xe884dea61bce8;0x6c9b67b0c40e1;0x524732232b38e]];
 [[0xbc714a63961b1;0xd268fb00e3331;0xde07507e71104;0xea8e794768461;0x3e30c9311f73];[0x1;0x4e4bcb3080f40;0x255c66c1bf789;0xf885d1ffb769c;0x15936f1f32bcb;0x914ea2b8ff8e1;0x1];[0x1;0x8e00d125300cf;0xdbad73a72dcdb;0x49108e8b6482;0x1d2ec933e38b7;0xb65a4af82722];[0x0;0x13e1b860e2ac;0xfe444d1c52861;0x2d0638f08429a;0x7ccfe894b0ee8;0x6da9d95eee144]];
 [[0xedc4336472163;0x4ae27b512d80c;0xef4ca5611a603;0x6792f802ab0b4;0x351dde9dcc3b];[0x1;0x160b1a98da5bf;0x591c62013f4b9;0x2999f5020bdec;0x1b74fada4e58b;0xa92274013a966;0x1];[0x1;0x73a85355ee467;0xbb539aec5a44;0xa5eaa4956c805;0xbdabb3b4ac248;0x626f1bfe8aa5];[0x0;0xded7faf8b247e;0xd1bc54d5d505c;0x900312110f99f;0x80ced016a8ed8;0x63306c8eb99d1]];
 [[0x7ef20850e8138;0x6a8cea687e350;0x6b122ccbb5759;0xe143c7edaffe9;0x3e9099c04650];[0x1;0xfd21d48b85a0;0x5ed69242e047b;0x6bb3276f32f83;0x3a351233825c3;0x98d53793df09e;0x1];[0x1;0xd2ec6b80c8fc0;0xea5e5c8b73ba;0xe010db8427c8b;0x14015f706c1c6;0x14dc84bf02d28];[0x0;0x4a50277374390;0x8e3e512e96c44;0x76beb052c403f;0xc5a6c5064b0d7;0x704c5d706481f]];
 [[0xbfaa656f3d2af;0x4d8d927417d38;0x14814e208c18e;0x1b3a7b79aa433;0x44eb317c88a2];[0x1;0x22ae2e017eb41;0xbce3cb2e13e3a;0xd3e0e3fba5e14;0x185405bccd206;0x897cd9d5c3ea6;0x1];[0x1;0xa98c099d5258f;0xbdf133d5fbd75;0x385134e03148a;0xf002917d2b266;0x22eca4b087dc5];[0x0;0xc9d6becd8c61;0x218a64534ac5f;0xb473149d5ddb6;0xe3b0d14d0a771;0x8177333ae4272]];
 [[0x99096029878b4;0xa639ac5141f40;0x7150dc3e0d1d6;0xc0b5848e6b7;0x4c98edb601f8];[0x1;0x8c7d9820291b4;0xfed772d8f9b31;0x1f73e6086201a;0xc9f861040ff46;0x800b8799eb6e8;0x1];[0x1;0xcdcc3b9c4ac70;0xbdf1c7f8923df;0xf576006370812;0xb3debffd88656;0x2287a1f14bfcc];[0x0;0xea6629446c684;0x7cc6e9f146a68;0x84b568c1de244;0x5c5a36dac86f2;0x8e009575db903]];
 [[0x74cac44d48955;0x98c39eca98dc2;0x3535c0f27521;0xa77473976e3e0;0x397dd646b1b4];[0x1;0x717b67aeaf621;0x16883d40616bc;0xa61127f28f580;0xc7f3a3ad03840;0x9dd363c14e473;0x1];[0x1;0x8e83c362ea777;0x9c638fea79132;0x3bfbf6ff489e7;0xbd7bc528eaf34;0x1f3e09cc19165];[0x0;0x1536fb8843171;0xd99a89ebffd43;0x8b4610aae4b7d;0x6d968a579e590;0x5d13d1f4e8ed3]];
 [[0x5c4bee2ed0f9d;0x641efb4fd4ccf;0x93046d26ce81;0x52db78cf33c56;0x300e15afe7cb];[0x1;0x1368d33e5736d;0xcf4431e9a8a83;0xa44a469fabfbb;0xb7d4c7499eedc;0xae47e498ffb0b;0x1];[0x1;0x4e6b5c490aa67;0x73bcba017c300;0x90b45ce1b9c58;0xea3afad746db2;0x179155954ce06];[0x0;0xca97b71eb652d;0x3c56201f064ad;0xed3ed95ddb4e;0x1277e1dccfa6a;0x4aad6168a0294]];
 [[0x706c6e2b4906c;0x686b702694f0d;0x58d35b776d2cc;0x86cb19bbab867;0x23c40e0098c8];[0x1;0x23680fdfcbcec;0x9012b22faa27;0x942e3f49ec153;0xd1e698ace6c66;0xca83450eedfb5;0x1];[0x1;0x1856c37ce0d70;0xe135c21841d36;0x1d896ff20b877;0x69dcd17588df7;0x17f29ef4dfd3e];[0x0;0xfdb181648d68c;0x6e698450c561e;0x74cb77fb7fc92;0x14aac599b0046;0x313b36e7249c6]];
 [[0xfdf1bb68c54c6;0xeff80905e920a;0x621be3316407c;0xc31d32502610b;0x285368de9901];[0x1;0x5acc3bc70c936;0xbf6e422eb8cc3;0x9949c7152a54d;0x2d022a55904ab;0xbeede59155592;0x1];[0x1;0x66e8b0a2c399c;0x79eabf306e94e;0xf4364778f737;0x3992b61f9d7ac;0x1365d9302895f];[0x0;0x7ff037c04df54;0x83af3c9cd4d3d;0x74adcdacead48;0xfead4152912c3;0x38a650ad7f9b7]];
 [[0x2b4144a0dd19d;0x23551b88b38ca;0x406f96a27e0ac;0x43350a7bb5d85;0x377cd5cbdd06];[0x1;0xf6aa6b587a44c;0x8cc0e776669b7;0xcef76e5958fdc;0xe13f3fa99e115;0x9d68e38ede686;0x1];[0x1;0x5cd88993c7667;0xa168e6d40630a;0xe7739685037;0xd885e6a71057f;0xfd3937105bb8];[0x0;0xb0eded1dddedc;0x5418fba8f350d;0xaee4583e49392;0xcb826432e7497;0x54bcfcff68ba7]];
 [[0xdaa1378d4e61d;0xe460eca8b3b3a;0x5b830021aba32;0x8afe9633c3e9a;0x65de60bfe6b0];[0x1;0x7245be4bb472d;0xccad2636e292d;0xd9503f162d71e;0x2286ae86d0ac;0x3e665559db1b0;0x1];[0x1;0x230714e3a0167;0x7778bb2b00396;0x4b1b3b76e1857;0xdde900a15c323;0x12ed7944aa748];[0x0;0xe53b5610c547e;0xa01f5e5200f23;0x2dc7ecdfdd23e;0x3addde04a0ad3;0xbf0a14be3a270]];
 [[0x63e9e5913e1e4;0x584fd7aa6fc7e;0x66d6d48fbda01;0xda1d1ffece18d;0x1d2ed50eb866];[0x1;0x856d85940b5f0;0x138d888813d01;0x4fca1d6e1bd6d;0x8a024fec78392;0xdf8b409bc8e61;0x1];[0x1;0xe66910c34aff0;0xe281a81179810;0x4386ff5e774c1;0x426d6dc67514a;0x168415006979f];[0x0;0xb0caaa8b2fc94;0x1cc19c4fb3ed4;0x9d5c27426c1a0;0x13c35f30be1f2;0x2fc213e6221cf]];
 [[0x9469407e3cca;0x2d8772ff18438;0xa25fd77ea9162;0x65d76d3e9b0dc;0x40536f568679];[0x1;0x7315ea3b6b260;0x8c25953643ff6;0x95969690a31fc;0x1de2f5bfb4a77;0x90d6de6164ce9;0x1];[0x1;0xe80a57e795f5c;0x21a16036d0192;0x6693f5ade7877;0x1f10630c107d;0x183deb86fdc43];[0x0;0x26ff98cf051fa;0x96942c5a1babb;0x77f5aa212e64d;0x18ba5b47b5b9d;0x734b124524961]];
 [[0x194d663168ffb;0xac9b2450f3cdf;0xd6fe459acbe52;0xa9bc566d50214;0x7352e5b5c1b5];[0x1;0xd6a39d80045c8;0xaa72039c2e518;0xd4807bccee93e;0xfa315d1950d0a;0x2d59c3e917298;0x1];[0x1;0xf9fc1bb7ad797;0x758f7d2f99016;0x77572d4c8f684;0xf978174daa503;0xe4b2a0909079];[0x0;0xbc8a999554211;0xa888bf7e384df;0xc86b559d5fb80;0x9d82ca8f25d43;0xe56e7f4d0719e]]]
 (V [0xfdf8c92cd9d93;0xfefda5e56746f;0x78f8af008208d;0xa0c15556308eb;0x3be84e6029bb] [0xe7d8ac6eee2d1;0x2c5c3a3244f61;0x231dae39d3a9c;0x1d0d048b206ec;0x35d3fe813015]) [[0x34594784b2118;0xfda45f7e591a;0x4586ddecf7254;0x276437d05513;0x38bdb94d3e12];[0x1;0x52e62329af60;0x4f4684e959466;0x540d546cc9dfa;0xe76b82ecc94ef;0x9eae92a63a3d8;0x1];[0x1;0xf49c9e232f9c0;0x8dddefe7dbf62;0xa89cefc770d97;0xf2e9ea9b9a3e;0x9f614f06f7e3];[0x0;0xa77ea3c8c3fd0;0x6ec286819d4fe;0x35c4eb787f6bd;0x24163c7e2453c;0x653d014c70357]]
 [((V [0xee6e730a82f34;0x70b12e0c64746;0x1312104bedc4e;0xc3a1d07b29c96;0x2012bda3bc0e] [0x7d11eee1e2faf;0x792db7377d6d;0xeb884d8912eb4;0x14e0c4ac5ba34;0x37e957cca505]),[[0x5bcca2637bd90;0x7d56977372936;0xc91d1ceaedaf3;0x428088eddf4ac;0x46862e9ff28c];[0x755c1c1889dee;0x88491684a8c97;0x455512b1f83c8;0xe8e13cda38e7e;0x607eb8b572d6];[0x1;0x2d46dd43d7447;0xf7e55c3c6286b;0xc2d17d2affaed;0x164e2f3b9c96c;0xa4f3a38df2a0];[0x1;0xb62a9f31b90e0;0x8d31951fad0ce;0xe5d59f3f5185d;0xfbc5c9885165b;0x307a79acfa05c];[0x1;0xeec33dda3f00;0x89565459bae26;0x35413303785a7;0xdadf38fa8a18;0x108eb651f7de3];[0x0;0x5d08fbb3d4300;0x5b5b16ca8830e;0x55a3abca3c621;0x4fc5c97efe45c;0x84b274ee0b329]]);
 ((V [0xf2e8fe00ad78a;0x2a63d4d370514;0x147076a1ffa3b;0xcbe12c38033ba;0xe4c32e5e2c2] [0x52685240200e2;0x68803667ef821;0x7c3ec03a9ef26;0x1288946326807;0x535984e4be33]),[[0x4d06f776ff76a;0x60310409e740b;0xd75890f2b5e4e;0xb36551965890d;0x398ac6f48e4];[0x43f5bf08b6bb1;0xc5502474b0482;0xa718ac12d1bc0;0x71a3f4505d85;0x71c38dff4560];[0x1;0x34a2b69d08870;0xdb54d65b1626f;0x7c2d5ce548c8b;0x6f6eed2a57fe4;0xdb7dba6e3db5];[0x1;0x61f3837794154;0xe9b6275b708c2;0x1cb182ebd7989;0x705d57df7d8e7;0x3a77103092e23];[0x1;0xabcefcc380edc;0xf982afd90ec61;0x5f2af4716f0b3;0x5a0f919d8af40;0x9cc97e2b0dbd];[0x1;0xd176b4c4207b2;0x4aa4001f48d24;0x2853982c6fe4a;0x7f824bebfa0e8;0x9f57a412edb0]]);
 ((V [0x8d266a38518fa;0x4f173477f0982;0xe72a4f4cf3846;0x3150d926e06aa;0x46bcd1b878bf] [0xfc3b610c24;0x3614cf6ba9d07;0x20e9851c25c63;0x8cf5d5e9a7e3a;0x699bae992f9e]),[[0xfb1f52dc15633;0x80a45a25fa334;0x47204c7913489;0x1d463cb9f4956;0x27053883927f];[0xe680f5c8126b;0xe8ae094410b38;0x60c118d4889aa;0xca20fd94e3b41;0x3ff16b0ba41a];[0x1;0xa58e777c1e85c;0x9a935682ecdcd;0x39d54326f6661;0x7a4f7c168f8ae;0x7e49fd987960];[0x1;0x69e6b168d3434;0xd63bf49d820e0;0x56e2136fdf0ae;0xd3edb29ed7bac;0x24cd728b2648c];[0x1;0x526a334f63c87;0x52442f52f3078;0x1e2090dd417b0;0x2f38f37e4466;0xbac54061cc09];[0x0;0x59a116645a243;0x40f58dd708c53;0xc185c05ebeaad;0x955ad142a7773;0x37c8d44445f7b]]);
 ((V [0x6f96faa6fedae;0xe98d255970002;0x32ff95c36c128;0x949989c3afb09;0x5f66acdd33a] [0x9128da49a0520;0xb808eda9c473b;0x9fcafabd39a91;0x83d17a6181012;0x11b9940a3f65]),[[0xa0548bbafc159;0x583ce10c8cd6a;0x96814183540b5;0x77d25e40ba534;0x11aaf18b869];[0xc642fb9787d09;0xb007c62959cc4;0xbbd8c909d99af;0x6e61b1a881c45;0x302950b91f11];[0x1;0xe99edd071fe9c;0x91d96ac2eeb83;0x33aa16c92dbc5;0x990623af3440b;0x393b05871491];[0x1;0xf0a36050e5078;0xcec1dfc379832;0x27e103dfdc96b;0xccea329c43ccb;0x21f256d6eeb54];[0x1;0x5cebd266d573f;0x8cd82a285b227;0x7263d1ff9d1f2;0xc0b7ec53dbd6b;0x126ddac3114ff];[0x1;0x931a6381da25b;0xcb409e86d3459;0x6756bb856752b;0x59a83bf789a22;0xd1aae5609840]])]
 [[0x7c5e7360c78f2;0x9bb3b16469b6f;0xf1dbdcbd121a2;0xc086d1c6265ef;0x6f2849741da9];[0xf098756fdbde6;0x20a362236469b;0x898592f3a1612;0x11a33fd4a1479;0x1f0142e38ae7];[0x1;0x30f29df4c367c;0x356de8375beaa;0xb5635cc0b212d;0x75ae5866ebf72;0x3dbb6b0c210b];[0x1;0x540789d16e780;0x3912a2b92106;0x7afdd1ba26f59;0x9c6d76e55015a;0x19b3e8c3f1f9f];[0x1;0xdf9ccdb1a0bfc;0x9ff6efb051f06;0x48c8690da9b6f;0xefecea7a78cbc;0x370f2207da03];[0x0;0x2d8c0a3d87846;0x4bd7a9803e532;0x5eb03079e48b;0x57bf8c2207844;0xde49c9c426905]].
Definition wit_Test_64_4 : colwit ipt wit := mk_colwit (V [0x93f2bbb5a0cc0;0x216e5d736f152;0x3ffef468427a7;0x58cea005da728;0x4c1079ccc3e0] [0x4b046c723d36e;0x6919a37aee944;0xaf3ef61063668;0x3c1d7a98a6dc;0x6774918a39cb])
 [[0x4091229419d09;0x6f04caf9424b5;0x82976b80b9df9;0x82c2dcff74dfa;0xacf7f7d8ba7];[0xa241233515e94;0xad2aa0352b9ee;0x4fcde1b3dd8d5;0xa73fa2e6cf7bd;0x4d638160df3a];[0x1;0x2f8793419e670;0xb50d0145857a3;0x77564e1515b91;0xc48510b452e75;0x7ae848a50b65];[0x1;0xf0960ec18ae1a;0x5e11bc4fed3e4;0xff6bf87f203ca;0xb309eb5310fe8;0x2ce2642282ba3];[0x1;0xb9d0936a27fdf;0x4baef99323928;0xbd5896c312090;0x1088c78e52e4a;0x196b1fd17176e];[0x0;0x91baed5ed5dbd;0x6d79b595fc125;0xe5ea2882b77a2;0x97c16e8ec700a;0x7af6973ea109]]
 [[[0x3bd73dc013e5c;0x284bd19935ae7;0x214929ba3707;0xfb78779b4d7d2;0x62b7dfedd32];[0x1;0xb91a9ef6019d4;0x804d005cd5da3;0xcae0129d550af;0xe266e81e98fba;0xe8df5e8e0396;0x2];[0x1;0xd2f79f42631f0;0x8b4d2a8ddb6ed;0xd5e6b50bae9a6;0x3a6c3f1ff6d22;0x1afebf934efec];[0x0;0xb0bf02451f4b4;0x8207a11161c7c;0x450a7d0e3d191;0xe49dfd504bf0;0x64bb0055fcbb]];
 [[0xa5383790a2e1c;0x64cbd7087dc8;0xebdcd3d7aed01;0x20bb8343432f4;0x24e3b5815304];[0x1;0x45e794dbc18bc;0x958a18cd54cc;0x859c019d0e966;0x574e5f54b2715;0xcc12695293ff4;0x1];[0x1;0xf8e70ef092ff0;0xf83a5c3958921;0x3ccb4b9948071;0xc9f7ab25c9fa9;0x22179861ee197];[0x0;0xb3b6129a1b778;0x8ef429cb5d0f3;0x8f066b2a5baad;0xb658cc04693df;0x3c4366dd08ed2]];
 [[0x79e928ed2884b;0xe14b43f420be4;0x5d41dd44beeea;0x3023b8bd2fbb1;0x255214b68a1c];[0x1;0xa754ac293a8d8;0x415989291c995;0xe119ca04e9665;0xa9d1ff8c0dded;0xc6b706c53111a;0x1];[0x1;0x3ace8683d2bb7;0x5097736c138df;0x75b1711852bf8;0x21248cecdbe;0x1dc948415ef08];[0x0;0x6d74fc07aab87;0x19e6159fd04e1;0xa445509133afd;0xb00ea274b28e4;0x4043253ba7c65]];
 [[0xc48ee8b920935;0xf18fe7c2048d;0x3d1bd0c411bf7;0x433b3a7459158;0x32f067c4881a];[0x1;0x38ff41bafdf04;0x4e5170eb7d172;0x9bb129af59297;0x8a6d4e6eb33e2;0xaeed67f812aec;0x1];[0x1;0xefe9b1d54fcb7;0x64e29c0f92ad4;0x675fc0031960e;0xf6bc073a4b053;0x1ab3929e9a83f];[0x0;0x4a6494932e8b2;0x5e48743b7b5cf;0x911bd0522b551;0x5fdc49b665905;0x62232db190880]];
 [[0xf4fa0a2308856;0x7aba5823aa5c9;0x6337652631b86;0xac6b6e0d09070;0x1310a7fa8176];[0x1;0x770dd49d121f2;0xb73c75b1dd1dc;0xb27d4f9053146;0xf83d070cc6b8c;0xf4a55af2b039f;0x1];[0x1;0x56c53aed239dc;0x3c0046aec4bce;0xe414f89477241;0x65aded9572921;0x227bb88d1406e];[0x0;0x6dd0863f071ca;0xd73395c52df64;0xc58b20ade675b;0xb60276c62160a;0x1a7313fac3b69]];
 [[0x36d41a218ac61;0xc667ecced3a5a;0x1d0b53908df16;0x588ed5513ce98;0x48c7877cb804];[0x1;0x66f8bb3f4793d;0xf432fc1b4bd4b;0xf6db24dac4a8b;0x3ebb0fd60c687;0x7bc88441b14fa;0x1];[0x1;0x42a23d5a4526f;0x2bc8b7af7da41;0x66192a45a6670;0x54b1cad4744f4;0x13e99829bb804];[0x0;0x198008c573eea;0x21a15c7c33ce5;0xb9ac00cd2c287;0x8a5da4ff126f;0x7f4175463ba1d]];
 [[0x4fa374590536c;0x2a84c971b09ad;0xa9e416c1fe137;0x36c5c6c4c090b;0x52b770422f54];[0x1;0xece0dde02a370;0xbbb5f3f61a9a;0x895e1f8a4a8bb;0xf5a07f0f253f7;0x61641bef97323;0x1];[0x1;0xed0117a5a0570;0x2453ab2fbd443;0xab6ac9f5c9c48;0x37a0e286de60d;0xc6349a5c8511];[0x0;0x39f72c8e433fc;0x9fcf126cad954;0xbd8f8e6a6bba8;0x5bd6193ec570a;0x912208ec0bbc5]];
 [[0xbb1fa63c3cd59;0x7bfbaac41cc92;0xcc4eb023e6bd4;0x8d132b9fd1b5d;0x41829269068b];[0x1;0x197f373054888;0x3e2db55c92d86;0x6038413b8cf08;0xc070d0fc0f1ff;0x8ac3aa14ba75f;0x1];[0x1;0x80efdc12d7f3f;0x585779713c3a1;0x2ec454ce58e31;0x3cba317fe9c11;0x1588b244e25df];[0x0;0x21d139051207e;0x7e4ae5014b43f;0xfb44c2b3cc828;0x8677f09d1dbbb;0x78aa3ed90fe65]];
 [[0x69cf94cbb7774;0x2a1316878aca1;0x72a9abd6dce83;0xefd46640159c8;0x5e9a7a8e9023];[0x1;0xf514f1ff50bbc;0x13a168d15528b;0x9ebf47f67851e;0x9cdde8acb0ba9;0x5613f8d5d3097;0x1];[0x1;0x3e748cd097e70;0x789e2fa9683d7;0x85d536357f12b;0xfcbccda08e880;0x1332a2657937f];[0x0;0xc07269dab10d0;0xddcd03795be94;0x69116d5f5738c;0x2f413ef30190;0xbb98425eb0b40]];
 [[0x28ed1f88f6e93;0x97960e7f22b58;0x6c1b102675b02;0x9b2c21cbdf612;0x469c55698c31];[0x1;0xbed221654ba48;0x14307057bc948;0xd0c9b287be89e;0x766b9ba91c9ae;0x84a832dccf601;0x1];[0x1;0xa1c30ffdf8e47;0xd02314356b5a2;0x6f5bf4bcdd370;0xd7fba9c267acc;0xd9e5a43c247a];[0x0;0xb3ae0f2138f87;0xa39e382b7e30a;0xc28c73c770ad7;0x8254b20274ffc;0x829008c560314]];
 [[0x334daf62270b5;0xc941c79bb461;0x53d67d6438d6a;0xa9bbd2183adc2;0x47019aab5c04];[0x1;0x2cb7254a0a72c;0x33caaecae6a6;0xabd25805ce921;0xe80e4fe47f91a;0x7d980b48c9042;0x1];[0x1;0xc0edd85d8f1b7;0x9b61e341e4b18;0x800f371b205cf;0x720b771cc0b88;0xf755d795c264];[0x0;0x51cd448b5f778;0x201d6349a3810;0x1c3e139f03237;0xd52ba813f9771;0x858cc4b397827]];
 [[0x726cba2e7e283;0x5c7f9bb49068;0xd6110c840734f;0x4f121ff048774;0x17b3cbb49a52];[0x1;0xbeec7c5d51d0f;0x7f88ad48cd87f;0x34d2108c7913a;0x4a0b7e705217c;0xeb170ab8fd4bd;0x1];[0x1;0x2cc0a94ec5a7;0xab251bd850957;0xfe70194127029;0xea84d46c767fa;0x1b7cdaf2d0971];[0x0;0x5187099a26a4d;0x583a14a667b09;0xbae922ab0ae89;0xc3b5ae2a38857;0x2f5288f076171]];
 [[0x9f329fa765f1f;0x55f50395c1443;0x6944b5fcc3392;0x34dae8b69bd42;0x7c978993bba8];[0x1;0xf0114990cc129;0x936fed526e7ff;0x3932f4f85e969;0x82ee9e539d0bd;0x1c635db457c16;0x1];[0x1;0x8ca251cc7796f;0xaa731e249638d;0x70bb714e395f5;0xa0d942836d771;0x1cfda675136e5];[0x0;0xab717e66a7ba9;0xc7eb39f1b9789;0xe31f058a7a9f0;0x65fb66dd8b396;0xf911e0609416b]];
 [[0xbe1de7142883b;0xd044a2f0b0e69;0xfcb70020a1ede;0x110d2baf4c72a;0x3bfba5affb94];[0x1;0xdd076c5a37b1b;0x48d4c5dea9d93;0xaafa3be280273;0x67d435592ec24;0x9d66f12540bd7;0x1];[0x1;0xa291637348217;0x2b13821691550;0xfa1de515cc348;0xc950d9c61e00e;0x2358aeb797ece];[0x0;0xc5bca7e21831;0x9de0a0e2645f4;0x6a0ea55b418c6;0x37d8da2d51953;0x698ebfca57f1d]];
 [[0xcc2c29ad2dca4;0xd91b94ee3d223;0x88996b3fd7985;0x1103a292dc746;0x454ad873f49c];[0x1;0xa38dc739cdc5c;0xd4493ee20475f;0x9026a6e82f238;0xa7bf24df1b861;0x80d85cdf230c9;0x1];[0x1;0xcbf8030a919f0;0x8a57878b0c1f1;0x8fa86777d877d;0xf31fde8e67173;0x19d4c86e9fdab];[0x0;0x3246ac0d5180;0x5e967ae915c57;0x890cce96aaee4;0xab3fc3cdcf25c;0x760d4d0e5552b]]]
 (V [0xdbdbae2f9732e;0xa40e13490284b;0xca7c36d9f0057;0x855cacc0af46c;0x4cecc5c07b62] [0x65281f8be04bc;0x34f31760a482f;0x1d113649f214e;0x20e2940306555;0x5c0ad7dc0a70]) [[0x58b39ba84f9c7;0x70415aad99ce8;0xf521e705ad181;0xf00465333f583;0x4b5ab97376b0];[0x1;0xee3f991e18254;0x84fbde95710ff;0x908013d14c99c;0xafd0f9fd66e89;0x6972219ad2aa6;0x1];[0x1;0xc00c19346a37f;0x5200e6de1a579;0x4f8332c420acd;0xabc2e8d6e7a10;0x15aac0970fcf9];[0x0;0xfd461b0e0372c;0x6edf1c198cd2;0xae89e98851585;0xed789f1762a2;0x82ae8ac75d576]]
 [((V [0x9b02a815e599f;0xc21ee3530cd3d;0x95be998e7a3fd;0x488d944856876;0x80f48c457da] [0xceb84110dc978;0x9b8dd7eba42b1;0x907124a0c7157;0x6c9605798d7a3;0x7ad708d8478b]),[[0x479e7fe0d88dc;0x51fbe32657cb5;0x6e70eda7ae4d7;0xa3b647db1b405;0x2603b3c23608];[0x98eb214107c87;0x5666a1cf7fc6c;0x1e5539b9ecf6c;0x46164cc286559;0x4b0fc73b7eb2];[0x1;0xcfb4e308e5c7c;0x62f5a779763de;0x13f5027ef9e8c;0xf544e5a238168;0x67e4ada80394];[0x1;0x821c2874912e0;0x93ab52604bca5;0xaadaade6934f;0x409e11efb376f;0x28bb2e832915b];[0x1;0x3135e66a6a5f0;0x84ac810700bfd;0x589f233fbf1ea;0xa725e97c977cd;0x1388775b3e39c];[0x0;0x46e9488067c80;0x30d72aa1496a3;0xdf344d5d01af2;0x6549a568a9ce9;0x34d2a29a25527]]);
 ((V [0x24c32045ef601;0x1db4ad39ce2a6;0x29f65e9ca9a67;0x1d9040e9aed4f;0x434ed79f6340] [0x9d0cbc8e01937;0x67da631546d45;0x991428f11fc;0x159f4db2c11b7;0x6a4427133747]),[[0x15e103bb5434d;0x82e21a5dcaa39;0xfe3da6525ddb1;0x675c24f6d9fda;0x1895b25eb1cb];[0x7f8d77bf5acd0;0x8e9ed59eb348e;0x9c3a7fc0d73d7;0xedd0999aa77c1;0x5a696a9a1fd];[0x1;0xb8b0886849e6f;0xa1d51fdb0f9e8;0xeca7c8ea0df3f;0xeb63a513dbebb;0xacb4267819d];[0x1;0x37f80a8fe76d0;0x88c02a1282e57;0xd40b08d969f6d;0x18048d58cac90;0xf2b791ac47e9];[0x1;0x39cbf1b807587;0x8b4a3867e475a;0xb4b445d448cfb;0x847bd164341b0;0xa222005a6637];[0x0;0xf6308decf6253;0xfaa9bc56669ed;0x4000069c87d40;0x63166c182a3ce;0x155b4690858d3]]);
 ((V [0xcebfce0769c25;0xa907c499e054c;0xc1c79ec0dec19;0xc4af9e0ec05bb;0x3af235e505d3] [0x3a9b5b37c9b36;0x37ea2c02f4f33;0x1ea45e0e2084c;0xc3d07f7aaa425;0x3fda392769d6]),[[0x2921fe85a9113;0x445c9ca50185f;0x1b51ce227e92f;0xad007965314c8;0x4595980b618d];[0x8ed42bf174f34;0xeb76f02cbbc64;0x5489c7772438c;0x7b1bb37026d0a;0x27bf939ed0be];[0x1;0x846ab78197f2f;0xb20dd31d33ea5;0x1aa8bc362f18c;0xa93c178d33824;0x2c1a6cf2901a];[0x1;0x1e8981f3b49b6;0x474c53d0b47fc;0x1749aec986f59;0xaaa1911ae6886;0x17af3987871a2];[0x1;0x4179981d87f47;0xabf92295f724a;0x76b07b13772b5;0x1a916e344fe40;0x15d4bd386a461];[0x0;0x75576e8847f07;0xf77dd5d5bb13f;0xab1d6d55581a;0x6b13e66d9464f;0x7a8978df3c8b7]]);
 ((V [0xfb73276b6e418;0xb47fbe146dc64;0xacec0bb619756;0xd9f70b4b34e67;0x1b5a374322d0] [0x6b8c1627485f9;0x85c383ba268b3;0x1c4145d274618;0xe1569645cd37f;0x30a53b719cf7]),[[0xb11c99490d097;0x93881ccbc3aee;0xb0dabb671b6c8;0xb26ad08af8cb6;0xb08e1367a95];[0x9389799a18069;0x75cd294d49964;0xd7f19a0e5d20d;0xddd0753e14d60;0xa26c0b3c665];[0x0;0x2f81cd32a9a9;0x2b9a084950ea3;0x2b974a27fc;0x79f82daff96d8;0x6d7c9c3e12b];[0x1;0x264981b5f340c;0x5269ebd474f9e;0xe65c4b3cdd2b5;0xee0867e54ae6f;0x131e6266b2fe8];[0x1;0xef198e13dd51f;0xbdcd7aeec2b3d;0x766c2fb89c1cb;0x1b25baab5ca35;0x12189bec74cce];[0x0;0x3504db0da5a12;0xd86b2f76d4348;0x3cbd060062c6c;0xf4d294a4e73e3;0x8ddf5fcc3348]])]
 [[0x2c1634fcbf8b7;0x70f0ea560d8fb;0xa820ed572fa7b;0x4b2612511df5f;0x2629862d5288];[0x70ccc08f0373;0x2d30948c57746;0x6703041f5e6bb;0x6a54e6085e60d;0x24bc2796f50a];[0x1;0x53237470a69c0;0x677b2e4fd77bd;0x4b4da04a423e3;0xede118785bc88;0x43a00047c91f];[0x1;0x2a05702768fa2;0x9cc2724d55f7f;0xae4a9466435a9;0xc875cd2d0cb60;0x1bf674267cce3];[0x1;0xc919443ea8f5f;0x231748d642943;0xe5aeb7948afe1;0x2329559dfc2d3;0x81c7474fb9a3];[0x0;0x5762223025429;0x7d859de6f2d88;0x575bc26eb59bf;0x25f76a5a05153;0x479a2d6518bbf]].
Definition wit_Test_64_5 : colwit ipt wit := mk_colwit (V [0xae1b9f77c2288;0x60a1119085ae3;0x3e2e85508ba42;0xaa0edc8dad343;0x6144261ecb6e] [0xa752cbd612f09;0x631196fa136f6;0x9696d8ff67569;0x39a3ecb50b351;0x47bbe9629fd4])
 [[0xacf5ffa8d7249;0xfa33da91972a9;0xe57f56c614af4;0x167af15e6ac94;0x118461afd1da];[0x7a238546c68b5;0x8e81982238377;0xb41c37529d29a;0xcbe92934f1ff8;0x215df4fd5c6c];[0x1;0xb5bcfb0f109c;0xf3e3ea93c0066;0xbc8d96455ab3b;0x6466fa426cac0;0x40c3fdd55cd7];[0x1;0x9b3b6490d6b0;0x747a69e6ae962;0x620d38b9abc20;0x8bc2229ac3097;0x1c57c6065bc2d];[0x1;0x49d1ee2bba95f;0x34ca839eb8e8d;0x34f8d6850479;0x20f2052a9a096;0xffa0d82e5012];[0x0;0xc6e943ed3150b;0x8848094b4b967;0x99f833f238a7f;0xb0235f1b21bd5;0x1939c195dab47]]
 [[[0x4779a8f35a3c3;0xf7844376078fe;0x6db1e06409b61;0x257fd45200b5e;0x6687bec320f];[0x1;0x8717dfacaad13;0x3bc42ad2aab8;0x57727ac0e8605;0xe4e17abbf57d9;0xa413900afb11;0x2];[0x1;0x6f3869bc75627;0x1e3e808f6ffca;0xa7393d11ad102;0x6dfdabb1a988a;0x1c5a89d737429];[0x0;0x58db0bbfbcbce;0x8f33edd6cc46e;0xebbab18242814;0xefd5a5710cacb;0xb72f78423278]];
 [[0x19adf81b8930;0x976b86d8c0bc;0x65e956b78e002;0xb79feaa9a5486;0x756586241057];[0x1;0xce12efbd1ee80;0x4805e0dcf7e0;0xd3e7e60025226;0x22c5f2217fe3c;0x2790fad36cf5c;0x1];[0x1;0x9af5265d24700;0xd907747a6b4bf;0x551d8f6581cc5;0xd5d30d0c4a60a;0x143a8d0844e65];[0x0;0x4bea35b419cc0;0x278dc5b9aae13;0xb0034079f9d58;0xba23f21a0c46;0xf78d6d54b20e6]];
 [[0x2b85f2349c4f;0xbb0d5ead42450;0x45420c08e4aa2;0x1a6d221b0917a;0x713893523aa7];[0x1;0x541e55268ee7b;0xf2eb535cba774;0x81abcacf37c1f;0x2ccb4d2326623;0x29b32cfb182a6;0x1];[0x1;0xcce069494fccf;0x1007dd1447780;0x3f21af378fd2d;0x6e5b9a2366360;0x6ddb2ae67740];[0x0;0xad06bdf8c3feb;0x9661e9ea214fb;0x63b9f2353dd95;0x73b2c4f43eb1a;0xe39708861f1f9]];
 [[0x4004a174cc926;0x7575b836c4cff;0xf4af465048ee6;0xf62852fbe4eb3;0x1fdc44490d7e];[0x1;0x7715e2082686;0x18d2efc15b52f;0x231ba8fc5c075;0x5394481dcaa00;0xd06904ccf0cee;0x1];[0x1;0x62f6f9f67291c;0xa8d9085af7d12;0xb44aabbbdba45;0xb213be68c0dc3;0x194fd23e20c6e];[0x0;0x7312ad15b4376;0x3c760ae900a84;0x56c4dbae520d2;0x12bf034c0d7de;0x33bbadf983513]];
 [[0x9f9038d6f3979;0xcb199156a3c1a;0x90d3f79159ce0;0x173d05f119205;0x18f9db5664a9];[0x1;0xaf3a27f788731;0x804c78551b0b4;0x69a88f58b2561;0x761d6044731af;0xde8fcdc595e52;0x1];[0x1;0x9bd1781fc38ff;0xfe17f0da579ce;0x670caa388b448;0xc48fba2040c9b;0x207779aab000a];[0x0;0x4d5ad831c1db3;0xb546c9f4b0041;0xb870215a1c0df;0x3a88fbe749d67;0x2496f39e6eb26]];
 [[0x20e08476b935e;0x4dc6c6a164e4b;0x80f4cbb2fe35d;0xfdd6672bd4c77;0x55738820af4f];[0x1;0x99d42ef3efa82;0xa2f5de56b05a;0x9567254a0cef6;0x870cbf40f73b1;0x5e9f910a73788;0x1];[0x1;0x9b224117f4e3c;0x12d6128922afe;0x64c78f7bc0587;0x86dcf884d2c10;0x1dae5f6abe34a];[0x0;0x91688b9512f8c;0x6c7822f5e091a;0xfa20f1f4f5029;0x4bdac3039ef60;0x99c5ee8683ecf]];
 [[0xfdff175f4c979;0x9ffced1f52a0f;0x4a5d9b16fe2ce;0xbd35c5278c33;0x4c64387267da];[0x1;0x4054381144066;0x1db09bbeac262;0xed69662b32bfe;0x4a5e65dad0d6a;0x7007cd3060a2f;0x1];[0x1;0xd3afa066018ff;0xce1b3cd4d6a94;0x6f7dba4136f3;0x35523699919ff;0x1f4d41c967fde];[0x0;0xc81fe4107406f;0x34840d5fdb01c;0x1e971081c9f99;0x4ce3ca9312ca8;0x83fdf9c85b154]];
 [[0xb330bcd400c2b;0x249035691c751;0x9c3f307a655d0;0x41b98176aa959;0x680a231c0303];[0x1;0xb6ed56291a5b0;0xe67c7741ee659;0x1b6c73c49c0f9;0x52f75110a0e35;0x3174b61af12f8;0x1];[0x1;0xe9daf8605e77;0x6ebff40d7c373;0xe3ea5e6d895f1;0xeef4ea17679e8;0x1c86c11b6b8ff];[0x0;0x65d12c3b2c5e7;0xa65d8d1fbb559;0xfbc4a60bb9acd;0x28363370c05de;0xc23610290c588]];
 [[0x9fa973e6a42b5;0xd1099afffd890;0xb2ba99fe2b858;0x28342bad5e626;0x38d5f15fbc01];[0x1;0xe3dff1753932c;0x5100391e4b6dc;0x413a67797b271;0x52d177a3359ff;0xa112d7d0df04f;0x1];[0x1;0x1a653fecfbdb7;0x7dfb5921172b8;0xf41adb1fe6d38;0xb2131737cfd2d;0x218e2490df5f6];[0x0;0xbaeb6ebbb5d5c;0x2000195b62347;0xc15d22482a018;0xc7552a45a1597;0x68a6e8bc64932]];
 [[0x5bf78b2cc2aa9;0x7074cea5465ba;0xd673f1eef2429;0x8c54bf53e1b9f;0x4ab30ab8c1a6];[0x1;0x6c3ede734eed9;0xc5bca46059b36;0xad005efcc7bfd;0xcce61c1dfc803;0x73ad25a8bb782;0x1];[0x1;0x25c657eeb229f;0x428df74841ef5;0x54f73a0bad97e;0xb51776bd9dff5;0x18d358510ebcc];[0x0;0x2b67404b3d18;0xf393d0ae6e542;0x14869b959450e;0x8223aeafdee1b;0x820f899711e5a]];
 [[0xd4ff25d0aa4b5;0x764996a03fc41;0xf6e4df195c226;0x5ca4b8613314e;0x1f70ca7c0514];[0x1;0xb65f543185742;0xdcf992745b112;0xb4e0fd3e72d51;0xcfcfe697e182b;0xc8b3c1fa27891;0x1];[0x1;0xb3fbd1f10e9b7;0xb714d5df08b04;0xecf1a6579ef20;0x990ada261c538;0x202c956b20bb5];[0x0;0x326b1298161ac;0x37d6ad2d0ca74;0xd0251af3ac08;0xc8eede562a95b;0x2aa1ed15972b6]];
 [[0x55a04893024be;0x142b41b3290e7;0x4108235ab55dc;0x954f227939b17;0x3f66a959710a];[0x1;0x803d3f5876d02;0x978f1bd7c46be;0x5d560cb377603;0xea167d17b0682;0x9058adb6576af;0x1];[0x1;0x8505462051fbc;0xcec06151feb4a;0x7486d1ca98a40;0x39f830187201f;0x27bd10ace7ccb];[0x0;0x95c040f88806;0xa5e521ed58cb8;0xb874a1d94a6ac;0xf567b8dbc241c;0x711d4a3fbe835]];
 [[0xff0d28bbd4cb7;0xd592f98354d3a;0xf06f9a2b8806e;0xe76bb527986;0x3ec892946738];[0x1;0xd637dd146d0c5;0x1f9b641fa67fe;0xa756a4d6c4d60;0x279d2f1f28017;0x8d01e6b082098;0x1];[0x1;0x352c3c0c0f75f;0xd8c974ca467e3;0x67b03cf7c78c0;0xb86af51772df0;0x1dc81bd4a6fbb];[0x0;0x9083997b11be8;0xde3dae8642dfb;0x1c3cb119cd445;0xb3c0b25046025;0x73fd86067d782]];
 [[0xd020363add239;0xce1528039c7b8;0x8d67cdeda403c;0x8b66e6f141523;0x7e19399e7e8d];[0x1;0xe8be6b35fc8cc;0xdc97d3fce0b1f;0xf630c455c84e5;0x164f261e481f5;0xc5a63c301c6a;0x1];[0x1;0xbbeb1fe984b7f;0x988c079b36fad;0x89a5e2a3f21b4;0x1595d98940b5c;0x133ea0cd08c4f];[0x0;0x2dc0319dfbcf9;0x7c3843532b956;0x1b71c82222700;0x6ee331b4201be;0xf86301f86cdaa]];
 [[0xf5eaab624db20;0x3a1cfc34652f5;0xab3196993809f;0xdc813c3bed2a0;0x56ea0ca3c353];[0x1;0xe2fa6a6a59580;0xd70d423475d09;0x4b8e5e5eaf65b;0x7761e0724ed9a;0x60e138ba3b842;0x1];[0x1;0xe11e7d050fc00;0x1b33f7f65a80d;0x3b4e647148086;0x2cf7b1af3e37f;0x1f660b12df1a9];[0x0;0x30e96140d4bc0;0xb521fa33306e6;0x2ec81c583e57f;0xd072c959c6247;0xadcd5d86d9a82]]]
 (V [0xbcd3b8f399d09;0x7dfa67e05c67f;0x455e7a4043111;0x4bcbfc1f9630a;0x61e3e7ed53ec] [0x27bb09c69ab8f;0x8954ac570b4a2;0xbdb35ab8b3647;0x38f3f754e2c5c;0x1024dfd8c694]) [[0x6dd93aa7ea19d;0xa614a89b63705;0xa589b38a8ac25;0xc52a317dde6f9;0x12fd05acd6f1];[0x1;0x2f6c14e8b9a79;0x5baf056dc2ced;0x6c1437aba1b7f;0xe520f0ed471e8;0xea74b486c6c4c;0x1];[0x1;0x3c22edc735667;0xee52dcf49b34c;0x9324319c17740;0xd474382a4c665;0x1ad28402130b3];[0x0;0x6025a1bdd8ed0;0xf930c948d121a;0x19cc8657d4e64;0x58020a9100d8c;0x24c3920f51d36]]
 [((V [0xb0e75d6b8de69;0xb34d805573af7;0xf2fe12d440e67;0xa758072f240c6;0x17f5ae442e52] [0xa5fd0ee8a4c07;0xe2508192de6c8;0xe4bf1314352b5;0x983d1411d8f30;0x29fd83e3356f]),[[0x6fcce1a851841;0x5b8c2bb63aa57;0xf85dbe006b88a;0x18c333f275ba;0x1817825e255];[0x45bcc2927c693;0xf426021356efa;0x47dc492bc34b9;0xd31bfd01b9433;0x7796ca084796];[0x1;0x2f62ad0327fdf;0xa2ebc91dc1b7c;0xc45bc4f18d33d;0x864818be3af41;0xa45092c299f9];[0x1;0x230c780f15902;0xb77b52cdfe8a3;0xb871c66e53846;0xd985dfba9c445;0x3cd278010675e];[0x1;0xaa229d0e682af;0x154c0eae341dd;0xeacf8563eb3b5;0xe2ece3382de37;0x1b776736877a9];[0x1;0x6d892f2896ff;0xde7a741021064;0x548ed05f2b1b0;0x622426fa639cf;0x41b5a6a724aa]]);
 ((V [0x19b38a592eb9e;0x5956cf7578b7d;0x5d31364f45746;0x7bf5eb8e15db;0x710a5aa7dd53] [0x5333f08691adc;0x3fad12911806a;0xbf9caaa9e6f3e;0x7c79124d0be94;0x68bd5431c9b9]),[[0xe33e4e870e1e2;0xa872a7b24a5ea;0xe716f2edb0092;0x7e727cd5875cb;0x1a373e4043a];[0x21b378da910f4;0xfccc9c6e528b3;0x9bbba7134e8c9;0x8a50b5146b861;0x2aa8711523ad];[0x1;0xc9266469de71f;0xb7f9f93915c30;0x7157b93d1df72;0x89d32b0ba6eb6;0x50d4bffbbc72];[0x1;0x8207041f8dae4;0x9911911188dde;0x356760f10c61e;0x10e4b91e1a014;0x1fedf72ba3fa7];[0x1;0xdbdddb41e493c;0xf3855c2e95861;0xd1b61d19b79e;0xb022d8e91a2c5;0x141e60fd75237];[0x1;0x50ed0abb39bc8;0x569aa36558356;0xad5696ba46fdf;0xb37118680e367;0xf087aa1903bc]]);
 ((V [0x1b89f11904aea;0x9979f6ac6d9e9;0x94733907130b1;0xd9ec5d0895ff6;0x48a9a21e40d0] [0xe7b5de9d74795;0xef6a7f8afc61e;0x5f5a949230bcd;0xff72f51df44dd;0x674d79e24ea1]),[[0x2bcee60e2fb14;0x7786e6b2f638c;0x57e501906c77a;0xb7ff8eef37ce4;0x180f9f8e13cb];[0xb01234fdd7ad9;0xa4bab06bedc53;0x439cd81e10b24;0x624e5966bd535;0x6bcd222b0b0a];[0x1;0xc284a28bbbf3c;0x19d380218dfa6;0x5b15d1e28f55a;0xaa93d369feadf;0x73c5fb6f48de];[0x1;0x99c2fecf377a0;0x731cade4e7598;0x43cc46b2b0457;0x5d69b18dfdb3a;0x35f6e3bf0f949];[0x1;0xac16ec355c170;0xa873349f7f072;0x483a87a28df9b;0x33353346977d4;0x250f6d11e8351];[0x0;0xf55209d1cd4a4;0xc5dca7cda6505;0x535ed83b0979a;0xc7d99f771037d;0x18185056cc0ca]]);
 ((V [0xf0a6f70cfe6d8;0x4c598759f85df;0xc3373c65750c2;0xa52395f3d35e5;0x35bea63ed9ee] [0xbd5e72111eae7;0x712f1502fbe2b;0xb251c62b91d81;0x598150d7de995;0x60b26e6fc550]),[[0xec3e102837846;0xffb4920e6fdb7;0xd669fb35cc97a;0xda8755bddaf24;0x6cfc06d9efeb];[0x3a2d9e9658b34;0x1d3c2892693cd;0x497258a612194;0x5f0b2d5217d15;0x2e9e02aeb2b6];[0x1;0xa5f7433aac8dc;0x5448c223f5325;0x45b4d092e60bd;0x635d37e3b3bd;0x33fc4e2c774a];[0x1;0xc8b17280305c4;0xcbb364e9f5527;0x46df3744e722a;0xbe426ed0f5e05;0x167ca864b571e];[0x1;0xa3a1fdd4eef9c;0xe86a45fb3edde;0xa5f51845332c4;0x1ef87095e8239;0x13158992bf7c4];[0x0;0xf58e89d063db2;0x502d13e045a2f;0xa1e2c7e5aa724;0xfafb9e816b84f;0xc8c98959b5dc6]])]
 [[0x8575a5f02d427;0xb7e58d9d41c4a;0x27d1ddbc3cb0;0x11ef01ca5f1b;0x1809281acafd];[0x3af4e8335c970;0x41fff45ea8c75;0x9ed85dd9e2931;0xf125dbd87283d;0x7ff427118a90];[0x1;0x1422cd1ec15c0;0x7e32b02faef26;0x51b10a93b9605;0x20f06f4ca1dcc;0xe9575080a626];[0x1;0xb59f4039c3dfe;0xc6dd3d26691a5;0xbf8b8589549f0;0x9dacd139a7aa2;0x3db682b4fcd7b];[0x1;0x6e2f22f037a3f;0x5053e69608628;0xfe148720f32fe;0xd7991801abf2f;0x180bce9752f66];[0x0;0xe63666d405dcd;0xa0acdf013cc03;0x81915252c2226;0xade8ec62ee6be;0x237aa0f8666e7]].
Definition wit_Test_64_6 : colwit ipt wit := mk_colwit (V [0xd686d673830e3;0xd57586638bd2a;0x9702e4e4f3173;0x43dfa7fdca4fb;0x26e5b6e70c8c] [0xe0dacac3e78f8;0xde610a4148e65;0x47b7fabbdec61;0xae765f873bc27;0xea97b14f2da])
 [[0xd0a06906c4d0d;0x781962021482c;0x2cc0123835494;0xcf146cd46322c;0x4e96131fc713];[0xe3d2a313b9d48;0x4cd1aa9191a23;0x245f0efd48096;0x6aacae0c9615d;0x6ea430806406];[0x1;0x5b1861336487c;0x626de915a1d90;0x461021d40cf1b;0x834b18b840691;0xa1f6eee2a063];[0x1;0x439d326a3e216;0x48f7d074e48a0;0x799b091db6bf8;0x4ada55b53884f;0x387f9f16c9248];[0x1;0xf4f4b5dd41007;0xfc386beb78337;0x97f9c33b631c3;0x3cfc46be06dac;0x17a1756e19163];[0x0;0xc9c04b5b2d6ac;0xf3c8f0122008d;0x764d8621e6730;0xd89d1d301b6f9;0xa07c94434fe15]]
 [[[0x9b899119841c7;0x3f80e235ae94;0xa4be8fef99807;0x943eeef180f13;0x40ec51412ffb];[0x1;0xd8d03cf7ee036;0x2c2d21b13f3de;0x858e21762c8fb;0x929757b718606;0x8bd7a1009b74c;0x1];[0x1;0x852029629b37f;0xdae949e720d9e;0x48a3c48879364;0xd228eee5fadce;0x19fbcf54a1686];[0x0;0xe5c83f476ec2b;0x1c6600281452e;0x940d4600a00ff;0xb13c47cd3a6d8;0x7dd734f18fb82]];
 [[0x1b6841ef821af;0x810faeee0003d;0xb86cc39e335ab;0xcfcdc117f1119;0x6fd511df4106];[0x1;0x6e94e05d14e2;0x3bcaaf21f5c7;0x7846b9271b58c;0xd1d8d9b04dba1;0x285428bbe6b59;0x1];[0x1;0x26d1d237a838f;0x75143622614d9;0x7580e127d5eac;0xba9253ac851e8;0x10a923ee283f0];[0x0;0xe05d679f8a795;0xcc77169404376;0x7813ad32227aa;0xaa7f4a879bb12;0xd40312b3ef078]];
 [[0xf98ac1a536d75;0xe00b640d00fe8;0x808663a67884a;0x7c550b550fe67;0x77cfadce671d];[0x1;0x9d61890584334;0xd4516b4a09286;0x7264623dd65ea;0xf94279872cb5b;0xb9d0a1534c1a;0x1];[0x1;0x9d35e1671e237;0xe24b0a3d27fe5;0xf7d6f32822ca0;0xf0a884712e99b;0xca16becbfc20];[0x0;0xee542f4cb83da;0x25da25909bcac;0xeeb920aed6c1d;0x60ca166930401;0xddd5993d441db]];
 [[0x574b9abc6ab09;0x4b8f6faca503b;0x25af1378004f2;0x56951574abd5e;0x52399e090d4f];[0x1;0xebba78d2f2c6b;0x57ad97a2f825e;0xcfc5a49f8520f;0xe3f6c63687408;0x6177b60e14ead;0x1];[0x1;0xb8a8797bac3df;0xcbf3bdc962538;0x7637eb09adf5d;0x9aec2545edb9f;0x174849e607d28];[0x0;0xe9dcd775b025e;0xf1512ea83105c;0x78f79a0aeaa9e;0xf062434a842ed;0x94a4dcd03abb7]];
 [[0xc286d08c5f2c6;0x422b8ad95ebb4;0x7efbdced900af;0x7cc828cbe11e0;0x5cb283c9921c];[0x1;0xad72108d828a4;0x41e484cab0461;0x1677a030620e7;0x3711fd85758b6;0x49bc7713aa997;0x1];[0x1;0xdf6145123519c;0xeee339e42d9e3;0x3da5b2e5a20ed;0xd1d110aa1004e;0x12c4a001f09fa];[0x0;0xfc01000a1327e;0x814bfd2b52190;0xd7f2b8f3e8d67;0xfad1c44fb1048;0xb564bf61d293a]];
 [[0xc758b1de45b99;0x46582b92a1107;0x1cb32a52ecb15;0xa312c8aaf70e8;0x728dfb3c7a4c];[0x1;0x58cb8a43d7e62;0xd66ff6a948318;0xb4faef1f63587;0x98ef32cddeaa1;0x2539ed6ae2b54;0x1];[0x1;0x226ec88011ebf;0x2cf09c9c1baa9;0xb784269eb4496;0xec1a6ff5dba9;0x1230b3a91af4d];[0x0;0xbe944f4a089b;0xd1eb77458864b;0xfff03da026929;0xa4612f7ae55ed;0xdc668aea40110]];
 [[0x740b6f9de8ea4;0xb1a84b7fc64a0;0xc6f6e71991b8d;0xaeef3e049074a;0x5cd949e2998f];[0x1;0x41697c62b3200;0xf5ad82c2acc97;0x4d900203b4f40;0xcc32d8f2267dd;0x4a5cf41376bc5;0x1];[0x1;0x7bd4fe3ac09f0;0xc60780e77fa1f;0xee4ce2a4bb5af;0xd660c24e4acd9;0x16cbf9339217c];[0x0;0xb51f1a3b4a5ec;0x489770289730c;0x9e65ef88b7365;0xbd9fe435b9502;0xa9e3356c40de4]];
 [[0x4db0f9591f081;0x3744c3da5a48b;0x741a1d4bb1a93;0xb3d51c64fe282;0x2043dde8dac5];[0x1;0xec155b4020d1e;0x53e5601a480a1;0x2db5442925618;0x1cf938725ca44;0xc326760d24512;0x1];[0x1;0x311faa783a2f;0x7debe983b8e2d;0x78e2bacce83e2;0xf6c94fe449b21;0x1bfc48bfd7391];[0x0;0xe4888d72cd429;0x46b576cc0d549;0x5e8b4801843a9;0x35b29bc24c53b;0x2e6c4770e2596]];
 [[0x672d09c11a7cb;0xafee8b9c09d82;0x608d964dc3afe;0x45853d54cdb7f;0x338a8742a7b8];[0x1;0x3348e7ca12af2;0xa90761a8ee55e;0x7b8bd660d0238;0xe3a4ab1d08b73;0xa3156620220ef;0x1];[0x1;0xa8fdeb23166b7;0x29988f3e2053;0xb6ff0628c5cd2;0xc15fc4930ed51;0x2164f349022ed];[0x0;0x3497bcae0758f;0xeb5e460bd09b3;0xfaebf68a8e863;0xd34900b68daa6;0x54cccf5a933b7]];
 [[0x7259a562860ef;0x7bde9f695768;0xab788822dbb78;0x315637c6f44c6;0x3c9b5d502b56];[0x1;0xcf6ece5264576;0x968ff6c1a1004;0xa92ba1b92e9fc;0x7194153787582;0x87d713d89927b;0x1];[0x1;0x6bea92537420f;0x7b98e22880cf1;0xe8c98ab658697;0xd47e1b95efe44;0x1980e350eae16];[0x0;0x609daa989e9f7;0x1bafb7b4465b9;0x38df959ff9cc3;0xeb7736c0a3f5f;0x6103b9d13fa1e]];
 [[0x8cf220c04fe8a;0xc11f532b5abe1;0x8f87f300fdbff;0x201099bad025a;0x60cc2c3c0cbb];[0x1;0x9daa72277b6b4;0x8d60d6cc4edd9;0x318f75fa56a5d;0x4f138f47428d3;0x3d4c686dbeeeb;0x1];[0x1;0xd7db96931c5c;0x8475b57c0b821;0x2313606c186d2;0xaf2d0cdd92918;0xe1a7cfd120aa];[0x0;0xad423e46e76a2;0xce8b60347ac0a;0x180bfc321a305;0x295e5c33a33ae;0xb217b2c15e188]];
 [[0x1baa113cdde27;0xde84ba818069b;0xabdc15e6aa3dd;0xf88359cffb3b0;0x527fccab024e];[0x1;0x2fd21ce5c9f5a;0xce468aaa4fc5e;0xc4b02c3b0c6df;0x4d77327bba482;0x5f7b294523dc3;0x1];[0x1;0xe61bf3468ae3f;0x75c36323818a8;0xfd2f22a786b4f;0x3bde06fde48a9;0x16a4feae693c3];[0x0;0x1c6432899f887;0xaaf4d05d9e894;0x982fe1f7a581f;0xb9ea0753b27d;0x94ed3fad276a1]];
 [[0x7416774fa9e77;0x3ad90cfe84095;0xcec1ef1633155;0x9b0600f9b739e;0x2fd3ccb2630];[0x1;0x138dda2ebc8ba;0x4f9e159103cb6;0x2f592a80c7b;0x13cfeb4bb4402;0x23712464c7d8;0x2];[0x1;0x9162e97539edf;0x13fcd0af81367;0x235bf83be0bd1;0x78ce92a8d2ae4;0x184cd1deb5ed4];[0x1;0x2b6f2adaa7ca6;0xbcae1652860be;0xd7565f72e2d09;0x17bd82cf537ef;0x1111f8e40d52f]];
 [[0x925bb22eda37a;0x3bf2312f7f36d;0x2ca5cdb276255;0x53bc673392551;0x4f8bec1c849d];[0x1;0x24681537790fa;0x5c51e6210beb9;0x899e67d16fc8d;0x2c3bfa09085d;0x5fa9c30c92870;0x1];[0x1;0x2fdd578d79c9c;0x291033ff06047;0x53b31efd59b43;0x18d3f558b3af4;0xfaa28aea158e];[0x0;0x30d9c38e30944;0x7eaabd5bd1f6;0xe93a127aca0f7;0x198094ee5dd8a;0x8cc449b9c0635]];
 [[0x9a3ec1822dd02;0x2222b2f501baa;0xf93af5edc88f6;0x4053a0af8820b;0x715ec437fa93];[0x1;0x4f3a401b38b30;0xbff64bdc3989;0xe2ee8f89caa0d;0xe2d44410bfb76;0x22b4d77615b1a;0x1];[0x1;0xe7a03d8e9f8bc;0xd6a2c8ed7d55b;0xc75a15242cbbc;0x32708bde258cf;0xe70d9e88a604];[0x0;0x9569be51e9ab2;0x30ef371f070af;0x91017f49fc821;0x587dcdf10a322;0xddac612e62c08]]]
 (V [0xfe47dd3571bb;0xc5f0c96eaa888;0x80a003059cc10;0x58a9288a52fab;0x37e2c2ee909e] [0x812b6f8f6af86;0x188269e76d594;0xb838b69e42a29;0xba5e3a272e78f;0x703365ef139c]) [[0xca9dc8201d12f;0xc7eaf41800ee9;0x13641cce52b8c;0xc839e0a703317;0x72b14b0eee88];[0x1;0xfe2ea380d8b4b;0xfacdb71a9b6e8;0x5be797fd2764f;0x41d8700c35889;0x1c5e1a32d4201;0x1];[0x1;0xc9e13be61828f;0xf3d307dfaae28;0xf78ac86dfe189;0xb5c2116bc81cf;0x1147f827270f6];[0x0;0xff3b41921f916;0xb9aa448a57a34;0x74e6858ba3be;0xe87a821f9c9f5;0xd795683677b8c]]
 [((V [0x3f7d74d84b466;0x53dd4b5411a54;0xfb7d6f7951219;0xe0bc7fba872ac;0x6b9c0ecc27c6] [0xf3532c5ffbc2;0xacea814830063;0x895d241f9ace2;0x90af51b7c20c8;0x5e8b80adda7c]),[[0x4a54842a5dc4;0x40113a4f3f7e7;0x491ee532a032a;0xe0cae417bc611;0x1f472c6f4b9];[0x16d023702a591;0x10ad0272e84d8;0x95be51e941abf;0x938ef811a8d83;0x24df1cea4c27];[0x1;0xc43d41cfd117;0x8ab0e5142d625;0xf0bf50bf54a05;0x80c10ef5c69a2;0x3157c89610bb];[0x1;0xad88d7dad27d0;0x1e73e6b48ae43;0x4c193023deda8;0x330c3eb1c932a;0x1d9cd52b91385];[0x1;0x602ba7e3454f0;0x8b83736f134a1;0xd4e0ee3d7e008;0x9ec76529cfe1f;0x1b6bb84b178c3];[0x1;0x4d88fe5189368;0x678aeea9cde09;0x7c5cb167df2e6;0x1cf177e3c925c;0x15dc53bc616ea]]);
 ((V [0xb5aca501a7cea;0xd497343735dcc;0x6efad5b739fe5;0x211cc23eb4dfc;0x6e2e87cdcbd] [0xa958ad6e2eb81;0xbcb56c17298c8;0xd5533f3861047;0x6366a4a1228be;0x752df3a339d0]),[[0x990146688659d;0x138b529e9c265;0x13faf75445169;0x4c16145eccdc1;0x48e83b81591f];[0x32f025f334729;0x86e0971bae1ca;0x7181c3d026fbb;0xadc89bdd0b15d;0x47fead374105];[0x1;0x18153970c921c;0x40cefeb9afc8d;0x2d8aefcfba7ba;0xf8bfef44eacb0;0x3585b36d1c33];[0x1;0xc673be5b219cc;0x5a0badf2d0df2;0x631cd8793c136;0xda0585cace16;0x244440cedcaa6];[0x1;0x3b3c72ccc6e67;0x18707fe43bcea;0xb68d00ef1c89f;0xbd40212bc38e6;0x192af23e103c5];[0x0;0xddd6b56687609;0xca3aa12501e25;0x4bbeaff57957c;0xe9fbb5c49b29a;0x7f7dba6ff7ebe]]);
 ((V [0xef18e3ff69c65;0x3e6eb39ff6541;0x500df8008f36c;0x36039aab6fd6e;0x6579fc72df25] [0x28c04887ff0a2;0xafe4aa7cdb775;0x9c65e58dda02a;0xdfc2dadbcf8c5;0x614fed77b4db]),[[0xc1c494e615fdb;0x57024d31504c1;0x4a00863e955cd;0x4169a9110fa93;0x6c9c05c3296e];[0xd00c6f0f9f913;0x797a14cf0509a;0x744ed2d68a565;0xb7fdbf3d16e1b;0x56a07ba84899];[0x1;0x7a6b735b6e0dc;0x404f2a9a31ac2;0x74d3779f69005;0x1f091b92be3d6;0xace21f463d51];[0x1;0x232eca82a476a;0x39bd341eaf296;0xcd7fd8cfd0c3c;0x57971ac384085;0x240e7b03f7947];[0x1;0xe3ba1ea3bae57;0x65f6ad73841ef;0xbf6063f171df2;0x7c8b99043f247;0x8a5792f1cf5d];[0x0;0x5535c456df5b2;0xe8d13e8739b86;0x6ac8d1c28849c;0x445f0fb3f90ff;0xc02de36b87475]]);
 ((V [0xb5b29ce80cf9a;0x1c4faa7866e63;0x38f64dcaf5068;0xdcc5a18c9c8de;0x1d4c7e253f51] [0x23c383af248c6;0x1d8ffac0092fb;0x471dd41e005be;0x915f284f47ebd;0x702a2e4f4d3e]),[[0xae6ae7b363e32;0x298643ca9c441;0x9b2d5818fb717;0xd96244b8e1a;0x109c819a4d3c];[0x6dea6bb4fa686;0x5b91f49aeb2c4;0x30d86dde62aac;0x433ba27edff83;0x32438405e61f];[0x1;0x337d5de712bd7;0x14729bdd2ab3d;0x8e18b7bc7169d;0x3525f21cacdd6;0x141411654905];[0x1;0x15c6c00d6fe38;0x992cef0d28e4f;0x12347e631ad77;0xad001ef783409;0x2145324e2eb53];[0x1;0x1eb9640cffefc;0x634b860bca50;0xa9bf55795d90a;0x91724aa3c06ef;0x1ce590e52fc93];[0x0;0x9d6eddab27cf8;0xdcf8fe07c656e;0xcd49f3fd48cd5;0xd2bdec7ab53b2;0x8a966da66eaf]])]
 [[0xea27dfed31b84;0xb8d852506f1a9;0x7fd97564b5847;0x54ae700a36965;0x7de363031709];[0x81f4c760d1c72;0x1fee09da0d1e0;0xdfe2f0daa3f39;0x66baa65bd347d;0x455150810f4a];[0x1;0x8351343f8c21c;0xcd549cd8590c3;0xcefe38c7711ea;0x24b5af8896a9d;0x83edca22f557];[0x1;0x2bfec0f1648d0;0xe6359838ffc83;0xd1bf3e1400b7a;0xe055ef6011df1;0x1c346fd708d9d];[0x1;0xaf4e6174ed6f0;0x15e36687a2ac8;0x9679f633a10ad;0xa70f6a6e55ca5;0x48effd6ce30f];[0x0;0xe78862acf67a0;0xce4b8d8176303;0x46e99f8d34b26;0xc6deedac2ff53;0xeada46a07ee15]].
Definition wit_Test_64_7 : colwit ipt wit := mk_colwit (V [0x396d6b9ea3cb8;0x4c8b66fc830c6;0x4f8ffbe339be7;0xb78bc6f5489eb;0x48824fa30100] [0x8fd89a080cb03;0x13740b7495677;0x82d486cb9aefa;0xdb9dac5bcfc53;0x476c53b5b50f])
 [[0x3c5ff1189d20e;0xd78c847e7ef73;0x249904731dfad;0xf00f0b595ad7f;0x21f82667d373];[0x5eb33ad561d4f;0x2c40a19fb42fb;0x97a93b1035824;0x148414d403434;0x3928722aae07];[0x1;0x397f0b13157a7;0xd6042211cfd05;0xf140f8a1dec1d;0x21d460c74a542;0x65f481e4df84];[0x1;0xab5c7d45015c;0x46a5f63afb0d;0x28daa2552dd16;0xac844c92433ca;0x22bf2413453af];[0x1;0x546f3d5ec97fc;0x1b5ed307dc694;0x7d3182cb0aefb;0x20a002055ec5d;0x1271c36ba6fc6];[0x0;0x3ea16d024e08;0x37b840bd17df5;0x690d3727b3072;0xd597011884381;0x3276ba2057f84]]
 [[[0xdf48b97afd667;0xb4c66a07f99d1;0x11e7ef4203d59;0x67e6544e6e126;0x506c9bdfafa9];[0x1;0x3e84effa9fef6;0xc4a668681e154;0x12244ed02149d;0x7730019ef6ed5;0x67a3ebfd6068e;0x1];[0x1;0x229f8f2cc22bf;0x5644af82b5371;0x8ae682dab65ef;0x6a6792a68da12;0xd206a204ab83];[0x0;0x8a8a73cb950d;0xbdd71739f3592;0xe673722fee03b;0xa8c1bffe0c8a7;0x9c80d8cd073b9]];
 [[0x1dc7d44838384;0x78a05a651ae08;0xb52344e14cfea;0x7f46e59b64c8e;0x5cc7a8aae9aa];[0x1;0xa735a80d4540;0x4c8eedb53a49c;0x772d17e9d1dbb;0x4784d7dafedbf;0x56ffe6051eb06;0x1];[0x1;0xc663f620f96f0;0x21e9f88538e33;0xd6ab76a592120;0x4a812aec9ef2;0x10fff411e2494];[0x0;0x8697c42f1bd0c;0xe5b6c30301d21;0x4c2fbdae9576a;0x130799825d6d9;0xbb1fb904224ab]];
 [[0xdf167d474df8a;0x26e23e3f5012f;0xbfffed44242b8;0xf1380cff770d2;0x607c26785a3f];[0x1;0x68cf7d9dc850c;0x5fb8cfb9f5e49;0x94f7d4c127ac6;0x77e4c2b5d584e;0x50dfb3d411e64;0x1];[0x1;0x33f58d6bf485c;0x2b9a52e5dce6;0xfb88841dc8af7;0x3f97a422992cd;0x1207e446efc89];[0x0;0xbdaa79564c7d2;0x8f6b7c7ec366;0x45afc4c19b98d;0xff550e54ea98c;0xc0608f6cbebaa]];
 [[0xe75bf5ba6ba2d;0x59a3e5fbac440;0x76b106686ce32;0x8280a58422755;0x5a025d0eb733];[0x1;0x6d779597d92;0x757428bd761b0;0x8dde72a7e712d;0x28744c67fec19;0x55c0366ae4509;0x1];[0x1;0x7a1c8a055f2c7;0x88bc2fdbdba25;0xabd6fe0b6cd0c;0x309c3fa8957c8;0x1146979f4f8c0];[0x0;0x9fb503bd4a013;0xfff677f81e1fe;0xd48b75b4bc33d;0x8d4c179bce3eb;0xa3ad4ccdd1219]];
 [[0x3f82c7c8cbd4e;0x882066883f020;0xd7802474489fd;0x90132da0ee2e4;0x6aa8e0da5c8e];[0x1;0x17c2cc0672ec8;0x5cea0966105c5;0x572ee90002b22;0x8437a6d4044f;0x301c3436d1ed6;0x1];[0x1;0xdba9c228e5cfc;0xd84546596038e;0x990d7cb53d2cd;0xc6710c4918866;0x1683cb0a798ff];[0x0;0xe5ce288271928;0xc929ce45c58a8;0x21aa20fc4d206;0xb731e7e70e32c;0xc42b43c44cea0]];
 [[0x162d8c36d8822;0x81687726cb491;0xc9d871fa7c952;0x35114df4f62;0x18659d92ad5e];[0x1;0xca3c0a75b3c2;0xdcacaeab0f7b8;0x5cdf11fed4725;0xf7d3a1167a0bf;0xdc5703016e5cb;0x1];[0x1;0x7145397bce03c;0x64e8ba89a4149;0xb03ff03518057;0x4e163a5563ef4;0x1546a454680b1];[0x0;0xd7f98a8ff5986;0x719f4fcc0465d;0xb83e771683d0f;0xc1c4b13d353c1;0x25267bc3e9a00]];
 [[0x8debc081c625b;0x6c58bd736a3c2;0x828a3f70eaa12;0xaa41bc79bf0ef;0x35e55eafd4c2];[0x1;0xbdaa4f1c6bac5;0x9911b130c4c16;0xcfe6b08f3e2e0;0x2463ee964dff6;0xa4b89a2e4508a;0x1];[0x1;0xeaa54b57a7757;0xce13eb57273e9;0x6dabf7822cb48;0x519385bbe960e;0x139f91e9386a7];[0x0;0x5d7bb71f72dff;0x14ebdf9d597dd;0xc92358c73ce05;0x4b74f9e05344e;0x639adab07d87b]];
 [[0x37d8cc1ea17cf;0x7d5ea7605af94;0xed096b45c9c4f;0x71456d7cb7e9b;0x16b7c91c70f2];[0x1;0x442459fcd131d;0x1fc73dff49794;0xf26a44ffbb9fb;0x989d4a71327a5;0xe3d2eecca6db8;0x1];[0x1;0xde7e793c433cf;0xaf3e534415323;0x65c9e1e7f02a2;0x2b9e5d38b8d67;0x15536db148e6f];[0x0;0x4f05b532d1c90;0xb641485d6ac1d;0xf07a64c681e8;0xd98e53142f04d;0x20ee8319ab71c]];
 [[0x237458085009;0x1a79b3dcdb88f;0x46404ef168f7c;0x43de24248379a;0x35eebdbb0113];[0x1;0xedccaa7837f24;0x44c717144a437;0x74e92325157fe;0x23b3fd7c3f8eb;0xa0131062d850a;0x1];[0x1;0x624929f1109df;0xcc9bb015a2b8b;0xf81f5fc3fc16e;0x54c819acd30a2;0x14c6667f2fce5];[0x0;0x9e06bd83b3e86;0x75c6ed4bb85ed;0xb8dc41ac0b86;0xbbb5e065c40d4;0x5a3edc52434dc]];
 [[0xdeb9f1f476dec;0xe745a39e3c010;0xa296b8cf976c0;0xb641fc01be065;0x411f07b21cc6];[0x1;0x67483f0afdfd4;0x3b4142acc8c05;0x203f84c16ab01;0xef0330291ba7b;0x87ef6373486d4;0x1];[0x1;0xb9511024fa970;0x955f6bd8d9552;0x658a32669913e;0x6e361133aa309;0x1e0dfcd8badad];[0x0;0xad5b7ba353b54;0xbd6f7e8cae012;0x68061535da3c;0xd76ba9931c4ca;0x734824e1a33fa]];
 [[0x716b24b97d72c;0x8a46ad98945ac;0xe0d9e1620632;0x187499a07f286;0x6e53a4802bba];[0x1;0x352c08c66192c;0x8e9d89e3e9787;0xbbac08fdfd22c;0xa757e041dab2c;0x2f63c10fc22ed;0x1];[0x1;0x88834a6372b70;0x94ddd273d7956;0xc5046e75f9b71;0x97955d7ae9dea;0x14fd1bc92b703];[0x0;0xd5bd056b38d4c;0x78ad41b611367;0x8ad6051489e47;0x6bfbcea2b0164;0xdc9b632d3d7f5]];
 [[0x1c80f55ab2e76;0x54666159c1202;0x1568c00a2e0ab;0x4a422287c2222;0x7775bcee8cc0];[0x1;0x53a13bb0be26;0x3041902b9b946;0xfad599dd91ebb;0xf39e8a9bbce1d;0x1e43c040fd5d2;0x1];[0x1;0xb18596f11e05c;0x7735925bde03c;0xacb386ae663ff;0xa49665ee9a4d2;0x12a92decb560a];[0x0;0xa2a2552e1c3a4;0x393c54f21ac07;0x4af6d4a130e74;0xfde52e4e437e8;0xe7a9dc1ba2ca8]];
 [[0x2503a9af45b0d;0x9f6af48dad29f;0x55ed769a3e2a5;0x2c0a37ab6cb42;0x444dc944536c];[0x1;0x77b3d955c4fc4;0x609054369286a;0xaead5cdd2c3b5;0x2185d3bfba382;0x832d45048f2b7;0x1];[0x1;0xe22c3f43ae407;0x88df6fad2444c;0xba487ace7b028;0xc32ceaa447d28;0x1f90b016489fd];[0x0;0xa8868c45c8168;0x5345484bc45b0;0xde115666c1660;0xbcd04fa7b8d39;0x7db67f4422c69]];
 [[0x300ae430f77fe;0xda7f8b84b8df7;0xb601bda8e321c;0x65b224a41183;0x6ff7d3a2983];[0x1;0x1d79b3a299626;0x5b11d3bcc24c;0x5a830b05c99dd;0xefc917c8e25a1;0x5882273ce9e3;0x2];[0x1;0x7030ce0b08cbc;0x57fabbb444ed;0x4f0096c62aa32;0x9c65eb8445b0a;0x1f9fb8a24c659];[0x0;0xa0f4ebf5e3cae;0xf2fa3ca1af039;0xab33a840f366e;0x74919503fab99;0x6932732fda66]];
 [[0x24595bd3f8c2b;0x6e0c4db4ef4c6;0x3e3aa9f64fa8f;0x460694b7286c6;0x21616adc42e6];[0x1;0xecc2600b58df7;0xa0ebde124043b;0xbfa3b09719294;0xfe7354c39ccab;0xd12d20507a058;0x1];[0x1;0xcfa37a37b5e77;0xc7aca7974abb4;0xb3f7f9c4ca270;0x9ff5a556a2b97;0x1b549b9ec0809];[0x0;0x4dd255797a85d;0x258aa3ce348c;0xd1b8148188f07;0xe4ded4e6670c8;0x326c896a858e2]]]
 (V [0x992f91af165d7;0x4628ada6b0f08;0x8cb073b1fc8f4;0xd839aabf257a8;0x54bea3db5682] [0x4b3448268a976;0x9af4bc75f0829;0x43949a1e62c95;0x348c9f170137a;0x70e70f5e49e9]) [[0x6ba0b48139ba5;0xf174472f8e69a;0x6775c6dca11d0;0x5bcd67c500b24;0x637040381a5c];[0x1;0x893db7e71f384;0x4990ae29685f1;0x2fd2a224bf06;0x1eebc1f5af4a0;0x3f7ce6eb68f99;0x1];[0x1;0xbe58efb54b57;0x49c6b8551fe0c;0xf452f1a6f0664;0xf902804586f0c;0x1489adc000549];[0x0;0x9164eaf926aa;0xa5410a68fbfd1;0xdf5796acfb8cf;0x10d9a86e04d7c;0xaf3f8e8e7c058]]
 [((V [0x56f221f66a1a5;0xd091407aeb04;0xf2ee074961f20;0x7077d48776131;0x6f0a7823eb9d] [0x1ed023702ca4d;0x942d8e9cc4dd0;0x44b172ce9e416;0x4b9d5feab286e;0x3a705dabdd3d]),[[0xf579c56cf6f2e;0xb85b59de24157;0x84d13efe2d200;0x5d88aa648df6c;0x23b8204dbc01];[0x1a0b1dd4fc4f8;0x874145ec3727f;0x2748c2f1ffb67;0x3db53fa42ecea;0xe28a4648edd];[0x0;0x40f92626f0461;0x53e4f4cf6c92b;0xbc6386edba517;0x2d029cec878c0;0x1bca0a3608bc];[0x1;0x20b06c45d3118;0x80198a7dfb555;0x438aebae67384;0xa2e3eb32973e4;0x115f0acaaf058];[0x1;0x72afe9b1acc7c;0xb159f93391e68;0xf86742967edf3;0xf18cb965c2f0c;0x22717c52dc6d1];[0x0;0x1ff18b42720aa;0x3f160b039e265;0xf992b8586ee88;0xf1e458bb0de13;0x33cb6c040ff74]]);
 ((V [0x732289d360492;0x4f44837d8e1c5;0xf12d03bba2768;0x121bf443c6d51;0x1735b277390a] [0xbc19a4f7956ee;0x5ff9526174c82;0x7d2ac9567a9fb;0x617ef211737d4;0x308d6f73476a]),[[0xaa58ca814a6b6;0x26321f0a553de;0x5663a5df2d08a;0x5ee4013cdc1f7;0x38aa9ec6850d];[0x3c54cd886294b;0x1ca4fe6819093;0xd6aed4718098c;0x3ce6faca28ed2;0x2d5fd9dab13a];[0x0;0xc859dbb9130a9;0x3c56a590ae15c;0x2dda4f381ca99;0xc9b7306edebdc;0x59475842090];[0x1;0xdd40052099c4;0xf67fa606c60d2;0x6b118c8bbb24a;0x526a20ca97a89;0x1dc80fdb648e4];[0x1;0xdac7b3839055c;0xf87254ab9f9c2;0xda5fac117ed9c;0x7b2e7dfe9ca90;0x1d17f1721e7d9];[0x0;0x2a89302e51c98;0x43161fa27f116;0x5b0df2c08f0fd;0xbbdd678e87a0c;0x69ee5075dd156]]);
 ((V [0x650d2f85581b8;0x91390e2a8a430;0xfc4934b9f90c5;0x324dc0f10f55f;0x713be87e2d8c] [0xfd5d7dd8a4ca6;0x8dcbd7d955d73;0x9207b7b9a3228;0xeb1b75fb486a;0x63170ab99ec6]),[[0x4e511c68f6b1e;0x5725bef84ec9a;0x79d7e6641b137;0x8d2e121bd525d;0x1f675406129c];[0x224d079ae0d8b;0x6af2d630d2320;0x85715ebe650f2;0xdfff07384b5b3;0x587b55ca1c20];[0x1;0x89dffd996257c;0xef47f42882607;0x584d040fa844c;0xdf74d8ff8edec;0xacc148ea9c32];[0x1;0xebf4c0d0af9b8;0xc38952f98d4d3;0x2aa296bff6dc8;0x7dced1d102dd4;0x2fb111d6336fe];[0x1;0x20e4cd12d7d3c;0xe2b9702171a24;0x303ee05bda744;0xebfe91581eb33;0x1379a3abcdd4e];[0x0;0x9a89bb961142a;0x33aae8e66fc8d;0x4aca264889567;0xface1e7d7c6b4;0x2cef2b3411826]]);
 ((V [0xa786b4930c768;0xa3162a6a638bc;0x64379e080e385;0xba5cb2510cba2;0x4ca76be57211] [0xa694d9d52b847;0x690e919686b7;0xa2dbff883b785;0x49460add455bb;0x6369f76ec031]),[[0x279555f9e2aec;0xe8d21e0199278;0x38a691ade1b81;0xdc5e7db3b5756;0x552d26e831b3];[0x5158c2dcd6475;0xd063ac63bfb07;0xe55fa35abfc55;0xcb3282ae11618;0x29bb0b1e0d33];[0x0;0x954208166840;0xd322a6987e4b7;0x9e55567b53a76;0xd128958d6bf55;0x10b5cc4ca89f];[0x1;0xdc2ad15cac8f0;0x178a5bd50971b;0xde768941a62a0;0xdf69eed8ce2f5;0x17681c0050efa];[0x1;0x6e30b2476b170;0x80b72c9a0f962;0x1c1b3faa65413;0xe814ecdfa4d24;0x225907229d13a];[0x0;0x745be359ad62c;0x87512ceb38f9c;0x2126b65b6ef84;0x5fc204343a5c9;0x9862781ad54c5]])]
 [[0x9ee3f40aa0ee;0xc0bbab5247229;0xac8bf5b95df2;0x8935f3ebefe6e;0x12bd89fb8347];[0x93e9ba46a8149;0x8dce291d95dc1;0xc9e478f25db47;0x4dcc8973746b2;0x752f7d4de42b];[0x1;0xe402af49ed1c0;0x687337f7829d8;0xd326eb824215b;0xb208849bfa04d;0xbc774f7f6b38];[0x1;0xbd79f76a808bc;0x740cb0bf2ba72;0x60822870ca52;0xe5b80c18329b7;0x3a200b6f7faba];[0x1;0xb5fce11058b7c;0x8d7b36e9fbf57;0x1b93ed97c7e3e;0x83f4f7b17f464;0x1f7bf3ec84215];[0x0;0x9140337fdebf6;0xfb5d625723b73;0xc47f70e73c3c4;0xb722007811d49;0xe25d6057860d]].
Definition wit_Test_64_8 : colwit ipt wit := mk_colwit (V [0x7c302f2ff239c;0xfa67b80dfd816;0x92ad92d164728;0xefe6b54655d6a;0x60851e7f6bd0] [0xd224c489ce1bf;0x30df3a5e6ef5e;0x8db398be6a1bd;0x5bbe6e0d0c465;0x635c8d1c7159])
 [[0x520dabfef04cb;0x1ca7a8f9c3630;0xbbd6b7f5a425;0xa5adf049919a5;0x5b157602adf7];[0x22bb56ef2cc35;0xb3de0d137e7bd;0x40a7eced8ac6f;0xbf7d27c1f635b;0x223b8db2e96];[0x0;0x8dfcfde3ff890;0x8a5958c8aced2;0xe151996c18f44;0x9507ef1b830ea;0x49bf89009c71];[0x1;0x3110917582724;0x3c533912d35ce;0x42e0d5986a907;0x44d44c21a4b20;0x85c138511e82];[0x1;0x9848bcc4288b7;0xd02983ac80120;0x85c99133fa31d;0x3152ecb66b627;0x20ff9a2f06f09];[0x0;0x4352c19dcb4db;0xe1f63448f8607;0xffb81fceab00e;0x72c7673c39fcd;0xa3ba4dc00bd0a]]
 [[[0x281e18dba9149;0xede3b5d162b48;0xef46eacb82166;0xe81d6ac9eea1a;0x7d2758a45898];[0x1;0x7b8420fa1e827;0xe2f67bc06c34f;0x9f5df34c68ccc;0x364e942f2f95f;0xea2949d1e3d3;0x1];[0x1;0x930e8c77d9b5f;0xcdad98148f548;0x5cfa3ec9b54ca;0x1bdb9b97f896f;0x1b4a0a1dbb474];[0x0;0xf326dcf9bf2a6;0x9bb99ff6143e8;0x4cb3508283722;0x3fe2262af1c76;0xe8e40e4cd66ea]];
 [[0x8814cd1e7c148;0x683f48c204471;0x13fa1569f63a9;0x24fb4504142fe;0x35d6a69a72f2];[0x1;0x8781d29da9550;0x62e6c9a3754ce;0x2afff020f5750;0x46490b80223fa;0x9e9e071d14d74;0x1];[0x1;0x7df2e7d07e7c0;0x2cf318daa4430;0x831bfa9080163;0xf66ac0b2f1711;0x19aeb4b02457d];[0x0;0xbc34d7e7da268;0xa65adfcb1641e;0xf80eb51b6dc99;0x782eac047a735;0x609c8d896b5e7]];
 [[0x6e2ca4fd996e1;0x872df870747ed;0xc9dbc4942577c;0x5158f463c8044;0x17c7d6d5db60];[0x1;0xd51f97316fe76;0x7437e4f29ac36;0x898d10b1c3028;0x37e932a2b4185;0xe974b69768a16;0x1];[0x1;0x83873aded4d6f;0x993a257b1405b;0x28ac2c7433417;0x5e47b7b43ac62;0x1b5683709cc28];[0x0;0xb519774c84140;0x881520720a574;0x69494217007eb;0x402e057cdb630;0x231b9ddbbd79e]];
 [[0x72d4a29e2031e;0xc63cde65d3250;0xbf999424dced3;0xe628efda7e9f8;0x422c086753af];[0x1;0x5ad6ef756c3b2;0xe0c3d53170873;0x1f49664de209c;0x52eb3745eb8d6;0x8781c745c038c;0x1];[0x1;0x271eb088fdd3c;0xa2d834abe0c38;0xeacf950e80889;0xa1aeb27eb42dc;0x194771054820a];[0x0;0x38167f542004;0x35e2626e356e;0xbb6a8138c87ac;0x94114507677c2;0x6eac4813b6896]];
 [[0x338722bfa03e7;0x1cabee3657150;0x8995d4c627253;0x7fe646ee2ceba;0x27a910f782e9];[0x1;0xf8a80e7184036;0x478411d74fb59;0x998db986e5987;0x72fbf94530d39;0xba19fc71b55b9;0x1];[0x1;0xee77f4bbb5bf;0x76cc264f2326c;0xb1a1ae0b35dd4;0x19a17a64d0ab1;0x1deaeb6d44703];[0x0;0x936f3c0ec9a31;0xb9ec6094c074a;0xce12ba3025fcd;0xca552feaeae08;0x3e66df7a9b05b]];
 [[0x805dfddc3c505;0xd728e5eab4283;0xf41ccd6f06b83;0xc9a93e3381cbe;0x580a009aa11d];[0x1;0x1bc6ec2b12a4;0x6d42b309d1c76;0xf6dadc89c0765;0xf246504445015;0x65022d34883be;0x1];[0x1;0xa2f78582fe597;0xd5a4c8ef52264;0x229a94364db4;0x22fa891d57cb;0x222fc4d8e09ad];[0x0;0xccafcc5b244f7;0x9620980f654a7;0xfbb153ee11a1d;0xfe66de78f73ce;0xb137915026924]];
 [[0xf32d06deeb9e8;0x7baabb48eb2fd;0x4c7789f9719d1;0xf2eaedaf1bf3e;0xf969e3eff10];[0x1;0xf70ab1bc4e410;0x28130f404f4;0xede4be44d8fff;0x79f11c801c389;0xf99b0e64ff337;0x1];[0x1;0x29021e55609c0;0xfe00f846d7805;0xa11d225955cc9;0x91d62f88c9b5f;0x20b33770606cb];[0x0;0xf4237f1144bc0;0x8cac22d300e05;0x5d84ec9d2a281;0x77aec3cbcac9e;0x1107419eda805]];
 [[0x49bc821006277;0x27039b6610d9c;0x7d71785bd02c0;0x5c91bdb261f82;0x7248cce43d6];[0x1;0xf64959ba33ff5;0xa77eaaad33800;0x47ee192f48ad4;0xf51671aee6a20;0xf544e27fc4e;0x2];[0x1;0xbc7eba4a9e6df;0x3016bfde0e1f5;0xe3ac8d82e5353;0x466b490ea3540;0x16523b64058fb];[0x0;0x5fdfba335efab;0x9c8fec45beb4;0x76e61c034e7c2;0x771a4daddd0a8;0x2216eb84e6aa]];
 [[0x9eefbb07f2a5;0xc24357ff0bdab;0xccd2b201cc973;0x94b23d9234abd;0x1b1972ce5575];[0x1;0x488b927651ba3;0xf6ca0fcc553df;0x43f0a777b6ebd;0xc6744ace955fc;0xe33659b2888b1;0x1];[0x1;0xcace3e3cb4557;0xcafa6a275a030;0xf5a5e1e9f766d;0xbc8c9506ac795;0x15750609d8438];[0x0;0x13d05fe4a6741;0x5697a8199fef4;0x154ceb2985f64;0x84893f1cd1bf8;0x3289d3a2bc1a8]];
 [[0x34c7a6c08dfdc;0x4fe4ea615eeb8;0xaef814b4391a2;0xe7e5cc6a68d93;0x6120cd711cf0];[0x1;0xd0b6b43683734;0xfbb62624367d;0xc49b17d3a5e89;0xdf414641e4c65;0x4e50e5f9631fd;0x1];[0x1;0x1894f3d399df0;0xbd5e684d16967;0x9993cf251287c;0x99c86bade9fc6;0x1fa4d6a481a4a];[0x0;0x83e4143d39f84;0x210922774401e;0xfcce8dc6378c1;0xb13825b931e2a;0xb8d5866950239]];
 [[0x431b55b6297e9;0xf6bfa76aa71ae;0xcdce82a0e629;0x5074aae5356da;0x351114456c67];[0x1;0x7e24ec8dde09d;0x5b5c73e78f241;0x858882126e82a;0xa798145d45bc4;0xa763a76e10be4;0x1];[0x1;0x81a6c72ec8c1f;0xe41ba28d07e3d;0x42d1ac83b2d35;0xe0e7893c7f240;0x1aad4fabbf66e];[0x0;0x241e9a0e0cfd8;0x938899f55913f;0x4a9bd33238883;0x9c6243a67d510;0x67d5277eaa283]];
 [[0x169d6fe7a851e;0x95d4a417c64ef;0xf1f74d60838b;0x91eb9e71afc0;0x53c2cbbcc64e];[0x1;0x7161e3a8c2084;0x55c975b175452;0x1cc777995442d;0xbbcc4b987fe58;0x6b54717146419;0x1];[0x1;0xa20ccf49fe53c;0x33935b7ee2c51;0x13d16db6cb93b;0xd5c2e9ac6e7c2;0x138faf97258ca];[0x0;0x1353ce182f760;0xe74e8e39fe74b;0x6508580849e29;0x257d5d1add2b9;0xa3e721b423855]];
 [[0x46acbc57aef08;0x4429a010c0118;0x8cf2541bdc698;0xcd0027742dd80;0x4e9c288623f];[0x1;0xfff5bf455bc78;0x54c538146bfdd;0x7a5dfce4b6211;0x490d90e3a554;0xd45a2010b068;0x2];[0x1;0x733bcd047dbc0;0x5b7f17556f5b5;0xc5a5ee3247d55;0x51b8b27da3c24;0x1ef0328174004];[0x1;0x7ea47d5bceb10;0x7d0c016e9c4ba;0xdad94f8894746;0x8e152e8e47cc1;0x4dc10a8a5419]];
 [[0xf6db2db1df8a0;0x555a68c77dee4;0x15d38774b3898;0x92c62475110eb;0x22d0610c8f62];[0x1;0xf19af91f62f40;0xc31ce2bfb9ff7;0x472177225cd8f;0xe68c9759be303;0xca0bb833984c2;0x1];[0x1;0xab07bbb485c00;0x4cbd4ed2d5a18;0x64e48eee931bf;0x2649c6b1df144;0x1cf998b94323e];[0x0;0xe2050c918b7a0;0x4056467170e2;0xdf66653bdb57f;0xa78d06804a5c0;0x328adcae0fbef]];
 [[0x547060b0b7b11;0xb382a9d7b31b5;0xba193569128b;0x91744c82a4b54;0x67a239ec9514];[0x1;0xe2c63737dad5a;0x78832c392f75f;0x575511cfdbe8f;0x22134320efeff;0x3a770f93cfae2;0x1];[0x1;0x65db7f97e8a0f;0xf1d959a527eec;0xb2677bacfacca;0xfccdbaa6aa1f;0x1c782fd79f0f0];[0x0;0xc502eadaf686f;0x4d1c3d15216ba;0x55e853e9e4baf;0xd06919bb146d0;0xbfa2f5b6f5882]]]
 (V [0xfd1b4b0cfc07;0xd891c3470bd;0xbec926716c382;0x37d42bdafc737;0xb6208ec7f13] [0x607e613451eb9;0x9bbee3ec3235f;0x4f6c24ef90bc7;0x1355e055c1f0f;0x78904ef64b48]) [[0xcad672645847b;0x228c71e1774ce;0x6c3ae799a9380;0xec602a3ecb02e;0x6a02150f0959];[0x1;0x719f3a9dfe284;0x8c3941f37a5fb;0x6dc389e211d11;0x4e6c26f4c886b;0x376aee80057b3;0x1];[0x1;0xb2f1b278eb497;0xcc7e496032f1a;0xf1f4162df3aab;0x31ff708a44d27;0x14d258390a4c2];[0x0;0x39b9cefbb9b31;0x34a1ada4b6d48;0x3ec3dccb34fea;0x388ba2f375e37;0xc6599e9aecd24]]
 [((V [0xcf9bb94768a2e;0x8550464a48d95;0x1541c80e1a641;0xa059a45581afd;0x6bf0e4ad28ea] [0x46ce4dd44e471;0x6e854c3b7f3b5;0xc014572eef68;0x170b246a6ded3;0x118127aa27a5]),[[0x15f763a8174cd;0x2ae09253ef3fb;0x9f6dd57be01f8;0x7d0bd76b10f81;0x44bc3e690da2];[0x6e60f42a9608a;0x980b9bd9c6c86;0x60804729b9918;0xf79dab972f766;0x2466d53fde79];[0x1;0x1aaae363afbff;0x6f37bf13353ac;0x87efccb2534aa;0xc75de6c10aad9;0x47ca85e16c5a];[0x1;0x900d4527adf96;0xd4941e6ec7202;0x5e974343a820a;0x878a9663ce5a9;0x158ed0e1fe072];[0x1;0x16ba3e8dbe87;0xd142ec657e60c;0x1fb99ca0becc7;0x526a473ff8db9;0xe080d5e53c9f];[0x0;0xbe2d14ceb142;0x980a09d9e5522;0x271de654f77ac;0x3a188375caac0;0x7944738a44cf9]]);
 ((V [0xe09a27940620f;0x62ef2d5b92904;0x3e851d3837964;0xbb28a5e66013b;0x1b4db152794e] [0x462add0a60083;0x755e1399257aa;0x4191a72968fb0;0x5c6be4faa935f;0x125b92570421]),[[0x49e5b7e2d17e1;0xd21929c533c32;0x2fd06bc91e926;0x22977a0365d55;0x69028391583d];[0xc320bd82376f6;0x19a9456b0e400;0xda546f7f6ebda;0xac31907bb7699;0x1689dd738eeb];[0x0;0x8a728c3d82784;0xaaf035685cf2e;0x67a996d1765c7;0x2790907ce4b0f;0x2df2c8c58474];[0x1;0x8121f9d7eb7be;0x28dc9f2596ae3;0xb375749d82c6e;0x7c70d5bfa3f1d;0x16a829b9cd539];[0x1;0xb00ec56a1eb6f;0xf3bdc692b76ee;0x4adde30855c69;0xc366fa14ca06d;0x19038d5727dbc];[0x0;0xf86ed92913f70;0xe628e27a7feec;0xeb8f260a9e8b1;0xe25e814615d83;0xd83c0f749d0d2]]);
 ((V [0xe8df182eebb40;0x71faa1445bd12;0xa15da881ba1d3;0x3a9f40747c90d;0x65132981f674] [0xbe7dbd6c071d0;0x8f2765ddf7cce;0x4734edfed4d79;0x48df219779a09;0x59b88d81242d]),[[0x18116bef12b69;0xf914f707e5cee;0x73823b4ce5d65;0x599a5753167af;0x228fb2804b31];[0xcc57645ed19b3;0x3745428799804;0x2371c1d4b03d4;0xf1e7a0e17cdb6;0x25069fe4c04c];[0x1;0x6d76ba1acb84f;0x44a009f8ec9a6;0x7179b55e43ecb;0x6d7f516aeed72;0x443a49d2688c];[0x1;0xd52249f4aeaaa;0x622a968d69e9e;0x924dc25c11419;0x8ef7466f816e1;0x1d43de1cfd176];[0x1;0x36650b78f9d1f;0x48b64b8e03e9;0x1ca3cf4a554e9;0xd64b152ed8438;0x12e082027da9b];[0x0;0x649a62ef60020;0x6731e9e0178db;0xa8b7e5ef8113b;0x1d61eb47366d9;0x388727d6ff283]]);
 ((V [0x1b78cb9561f9e;0xb66b61f853af7;0x1c7ade192a0f5;0x15244605d0bff;0x493cfa86ea5d] [0x389237ec4ef27;0xb64d2e7213b0d;0xfff4f694141e5;0x4be32f21df6af;0x604983dc083c]),[[0x4b4aa3f1635d6;0x7590774b2cce4;0xa0814579988a8;0xb8bb279c994a2;0x59a0c52f82ed];[0x71edadbbe4df0;0x90310c55e57e0;0x15a784e04d46d;0xcebaad088db0a;0x693ea3bcdf22];[0x1;0x18ed1a4747000;0xae67ffc3e5f7c;0x9b42b186a0cad;0x40998eb6cb10a;0x82ad071a454b];[0x1;0xe8fa379c24c40;0xf4654b3c9e41f;0x6d8ad6ec219c7;0xddce56c9ab05b;0x2f9d1cfd53301];[0x1;0xa0ccb1ea0c7dc;0x97db4417240a7;0x911aec0dc2f6a;0xdced0dc46efe8;0x1e8043ef175ec];[0x0;0x14c9f93fdcbc2;0x68d3f8e3740e0;0x2636d3e8a1737;0xb6da71f0d09db;0xa2d332bacc975]])]
 [[0xa1094d0ededa4;0x9d0af258d9116;0x398812e68206a;0xdef5d48ab8a0b;0x7503ef78999e];[0xceacdeec6beb8;0x7c886134afe70;0x96c1802c77c58;0x4f11c2c04a842;0x69146a4912d3];[0x1;0x9d39beb188f3c;0xf25d47523217c;0xf49f33471f23e;0x29125909bf02f;0xa84129c37981];[0x1;0xcfc866dee0688;0xe572925e70d90;0x348aa8124d466;0x8d62adc638de9;0x2c66e2cee0a35];[0x1;0xb6799aa7fd1f0;0xb306970e455e1;0x5823c5e433080;0x78f402f124d23;0x154ad8c293f2e];[0x0;0x4fd73f9f311f0;0x2892e7b97699e;0x890bd2f00513d;0x2f960c767f4c6;0xdfb7915b8f3b0]].
Definition wit_Test_64_9 : colwit ipt wit := mk_colwit (V [0x9b28a1f02338d;0x8675ec021d306;0x733b2d7a44e68;0xe90f3e3628232;0x6aa5fa1f9b1a] [0x60f4b85040de0;0x655c1e36625f8;0x58c706e41a612;0x3e5bee0cf6420;0x567fc904618d])
 [[0x52e319a74509f;0x72e847d797eaf;0x40536a52263ac;0x88946e66bf81e;0x362bb0a4ea41];[0x60a011488886a;0x24c445bb2a817;0x252449b6605f5;0xb065522599913;0x38b89d7c2821];[0x1;0x92ead105f7847;0xb456335bbd0fb;0x42f069ac01b6d;0x48edec70be12b;0x42b369013130];[0x1;0x762c18f75b3a;0x2b66348e8f1d3;0x27d028a82c48e;0xafc77fb8f2dd4;0x2300ea794805c];[0x1;0x9afccc5ea2c6f;0x45cae304ef5e6;0x709dba3c3ae34;0xf7a4f2e5b628b;0x1f3c4b0347e73];[0x0;0xd4adc81fc8359;0x17cc56c393243;0x4f5d663560770;0xd8f3f8f4f5fda;0x5ec884362cce4]]
 [[[0x2b22f83f0e072;0xe92fac47f8469;0x137fd83fa111c;0x8cdddb7295ed3;0x336c708d7940];[0x1;0xb8aed9fa857ba;0x90a7b890b7983;0xf2c9b43d51328;0x9119590905084;0xaaa8c1920d0bb;0x1];[0x1;0x4c722111cbdfc;0x8e1c0da819216;0x63af2d9617c6a;0x38e0bbdfc4fab;0x20e00d0d1f5eb];[0x0;0xd849d835afa92;0xd86412b8ba7af;0xc8242715e1ada;0x9d167d1815b9;0x632d4b34fc774]];
 [[0x36e6509213539;0xcb02e90c9b318;0x2f8d8c4de09b8;0x8337bf9ef8ea5;0x769f6aaa310a];[0x1;0x8e29e30dd8eed;0xbc6da36adf0ef;0x50968dc14a9c0;0xb114cb9bcd99a;0x23ec55bfaa343;0x1];[0x1;0x86e257387557f;0x89fde750ae611;0xb9ee16158d537;0xf1f9f7b9e299d;0x144ec9d5a5a98];[0x0;0xc1316d6790322;0xb748f25928276;0xfa0902919bf72;0x568eb819f72b;0xf4c98700848a9]];
 [[0x6ae2c662df96a;0x1ebfb62f12442;0x9bd4fbd601843;0x4d07281727d69;0x17e4d51a5e3e];[0x1;0x9f3a9af026228;0x7a041a25826be;0xb9073498f625;0xde009f053913e;0xe5f5bdd72133a;0x1];[0x1;0xf55885d05e6dc;0x9f7cd2bbbb5ea;0xa9a2919b14201;0x5a9da781a221f;0x197987368ef36];[0x0;0x3112eba1e879a;0x9fb0699393481;0xd086b38f3d29b;0xf407bfcd17a6d;0x20acec0be77fd]];
 [[0x75984d998f206;0x608434d2b9003;0x864d76e0b1c86;0x49e4a021f7714;0x36c08cd2dba0];[0x1;0x5806b8b47fe08;0x57062913134c1;0xf503bb8823721;0x254e5dbcd247f;0x9bbfc4387a74f;0x1];[0x1;0x3f4eda90b3a9c;0xeaf560e08effe;0xfe37c5dbac58;0x9c47485eca3a5;0x19db6e92154fe];[0x0;0xc8d43d838d1b8;0x49f0a4155f4a;0xe29499bc35633;0xdae580852acfe;0x5a7ad9bf19d7e]];
 [[0xef0d4465e36bd;0x24f9ec07f2488;0xd2c266594e2b0;0xd08a6b67ff99a;0x42375649e6f3];[0x1;0xb5c795feca35;0x8fea38ae769c6;0x6a0b631e24d2f;0xf50d32c6dbbb0;0x85a3e590a98d1;0x1];[0x1;0xeb78b2e242527;0xff54a3dae114a;0xf901071703d24;0x8ba75c87418a7;0x19b2ee5a2de23];[0x0;0x9a8d0dcfe5049;0x46e02d61d1ef6;0xd2e08357f8461;0x9da229d60f8df;0x7c11c1489e4ff]];
 [[0xc7c3f592f208f;0x99a6c3597a7f3;0xb660ba2d420a7;0x8038a620c3814;0x537d40a41ad];[0x1;0xa16ad38305fd3;0xb44f824657ef;0x27ac98f6e18b1;0x9fb80b227804;0xf4b0e961042b;0x2];[0x1;0x214e8ee02b54f;0xdc3c15f9b0217;0x3aac430669202;0xd9d043a2b3b7b;0x1c51e065996ff];[0x0;0xf7f8940700448;0x540aa6647f540;0x34e266af386f;0xa40177f9a440;0x557d8d069f12]];
 [[0x359cb0159fe2b;0x3689e49621e2;0x4baaada34cb6c;0x7b233dfc3b1b2;0x5dcfdcf39884];[0x1;0x6e1b6eb2d4e22;0xe688d4ad8dd99;0xac07add3e3a46;0xbeb1f4ea75a11;0x51571ac0946bb;0x1];[0x1;0x30ced32175277;0x721b9b41c3280;0xeb869aa77dff7;0x46242a026b254;0x103c4d11e117d];[0x0;0x3e247db8ae60a;0xf6627686bc1f9;0x9b3f86c3f8f3d;0xad6ad40056cb3;0xb1f58fd47a6d8]];
 [[0x3da4e75cff368;0xfe119361a7367;0xee84706162a13;0xdfe5842c7c2f5;0x33642c5685aa];[0x1;0x4dcbd655675a8;0x7536746838914;0xafd5a0689cc1b;0x999e8f92886ac;0xa31be18c5b7cf;0x1];[0x1;0x9e76164c711c0;0x8ff058db92c09;0x4d63b123703db;0xbc52220c83d67;0x1e3c0a227f34f];[0x0;0x18115738bfac8;0xa0c95f3fb57f4;0xde80df6a69c6d;0xed71cd7f8964e;0x55bce807668cf]];
 [[0xccb72ca10dcde;0x9484e3180ca33;0x2e197c520ebb8;0x662cd8653b769;0x2c5ad57719a5];[0x1;0x5e560ea13a486;0xf6c433c8ee2fc;0x6698e40e71a89;0xa07fd3749231f;0xb9ae606b5af75;0x1];[0x1;0x503b89252f43c;0xcd4b69cf62142;0xdbaddecf036c3;0xd13e2eba74401;0x218d7e7e67363];[0x0;0x662b490126a24;0xf5a5d0f65a586;0xef9ada013db99;0xe26d43474ace7;0x5608d3cc92798]];
 [[0x5fd739a67806d;0x2a8e3c35ac8ce;0x4ba7e5fb2f04f;0xda8f1b9e6342d;0x18d8f40563b0];[0x1;0x63a548ee4dc80;0xc0ad0d47337cf;0x205b4b3adfbee;0x88ff1762a0222;0xe5a2d0d7757c8;0x1];[0x1;0x8f43ed742847;0xb9a6746efa27b;0x806d05d6d4f4c;0x3d62d2c0a63ef;0x148c874381230];[0x0;0x6c0b71459808;0x1a73ebb5c83f0;0x1bab03b1eb4bd;0xa8968af06f44f;0x24e2d0703c076]];
 [[0xa60eed1402b9;0x729056422f1bd;0x5fd95d76539d3;0xe9c047318620c;0x45741a2860c7];[0x1;0xe19f804bfec71;0x5394c338440fa;0xd13a1f47de141;0x9195bc92af22b;0x7afb9e1437fa2;0x1];[0x1;0x42789f080227f;0x43bd053dfa6db;0xc56e5a110581c;0x80c145d0828bb;0xd441a118ee6c];[0x0;0xb4ac5e2f1ab91;0xd26d21a392e90;0xda915024bd08a;0xb769f9d4066a;0x78d632366d62c]];
 [[0x98c917b2def06;0x931b2d81f4474;0x436b4647e200a;0x34267f10f2d9f;0x4097b6d0ce92];[0x1;0x93da17f61ff06;0xecc7edd2e7d4b;0xe207717cd284f;0xba11012c56f95;0x88e543a9c802a;0x1];[0x1;0xe6d26b74f9e9c;0xe95415b372d96;0x2bbe2422e8b62;0xde02ce9e53950;0xcb2ceb72bb67];[0x0;0xc5802d01fd40e;0xbcf561b7d662d;0xa5bd50f355550;0x44fa02fe7b518;0x7910bc8ca475d]];
 [[0x8e9fe8f5422ed;0x6e284ddcdf34b;0xb2ab84181ab2a;0xf03575b1fd22b;0x6f9d8c138e53];[0x1;0xc2c0b1c0dfd1;0xe84ab1f9e36c8;0xe901dc3df4de8;0xb2c6ed65ddd23;0x2cc849a772961;0x1];[0x1;0x36c1ec8f4b747;0x3825b1ee66193;0xc7014b5015b05;0x57f38a6d6cddf;0xf22f5d6972bb];[0x0;0x3384df3874af3;0xade54c98ef6be;0x83afe61b08134;0x3999808994587;0xd3fa0a085a7f9]];
 [[0x517eba169debd;0xefb1eed570a28;0xa2f9737b68256;0x963027d50d81a;0x347ce9726d9b];[0x1;0x56aaa474b371b;0x3b9867b146372;0x71d5eab5e5c5;0xf5f524b7f7f30;0x9fe6b7622b253;0x1];[0x1;0xbee874aa11527;0x6d081c9d27907;0x692afd7d2393f;0x2eb93e6d1eabe;0x1b41b38cd86e7];[0x0;0x2c5ab06bf8da0;0xf87a0450e9030;0x7d2bfd2e15ec;0x13be95b4effb;0x587a84159eba3]];
 [[0x6f6b8ecbe57ab;0xdd9a18762e120;0xe8d477349f05e;0x186c14276253a;0x5cfad1486454];[0x1;0x3584c63f3fae8;0xa2239ce680faf;0xb3bf0700a41fe;0xcf1e0aca793f0;0x533615db8f441;0x1];[0x1;0x4b6b77a073177;0xb2b31f7c8e5e3;0x689759848822d;0x76d6c2e3ac583;0x1b77c746b4909];[0x0;0x10e66cba36449;0x76b57e9790bfc;0xa237738434783;0x943295fed5a9;0xaeb67eeb578c9]]]
 (V [0x8b4b938afb5c8;0xacec96e7fa09e;0xa0c98879ebd65;0xb81fe02e7b8f0;0x579a29dd53e8] [0x201f0cded0240;0x45df5f768601b;0x38509c817655f;0x30143eba2b331;0x3688eb790ce4]) [[0xdeb13f0c54a3;0xd49876e6769e7;0x1ba8835135cae;0xf5a9f0d6eb3b7;0x964ba48eb27];[0x1;0x2327ea0ca2748;0x4d7ee867f55f0;0xb6535c1c32044;0xaf154106c0f66;0xf7794d2239806;0x1];[0x1;0x519cfe3c858e7;0x7017514618e8a;0x1850fd6e16707;0xbc9483a7427e3;0x1e5e1494a698f];[0x0;0x683eabdcf725f;0x99b13dd46fe1d;0x7a0bbbdeeba70;0x266f2265241ed;0x2006c01eca45]]
 [((V [0x82a2e4f8bcbe1;0x82537cce21ac6;0xea1d0dc41ba97;0xb16cde6725794;0x4b75a478f644] [0x3784cd8d85a93;0xf25c1344125;0xc2a43301720a7;0x2ae0947acc566;0x5c7163d12710]),[[0xad691239a0a9c;0xe941b65028f24;0xf4b74f5a0300c;0x8dbc5073fe445;0x37a398617371];[0x524d82ac4a4b3;0x25b29cc4df932;0xdf9e690eb96e6;0x554af719f1429;0xab95992a4af];[0x0;0xb46b2bec16040;0xa59b0073f7cb6;0xb46a177a15d2;0xe0257fd06ce04;0x268197705ef4];[0x1;0x8addbc655e200;0x980d973691e54;0xcb6ecd8872cf5;0xe58d12adca529;0x110ef0883e397];[0x1;0x6658fcab1f3f0;0x65bf60b65f08d;0x3be4536839a16;0xebf75bef2357c;0x1dd24885caf5c];[0x0;0xca7a882853c20;0x3ebd2b25b9f92;0xc9bb0e7e931e3;0x23e7f075c006c;0x60b693c4314ce]]);
 ((V [0x5b5daa20a4518;0xdafd5d24cee29;0x9504b307bf9f2;0xedf5335c85224;0x7f4d91f8fe4e] [0xaf609bcba3c8f;0xa19969ceba3a;0x4b1348f4913d3;0x80c4fa04a86a5;0x5f909345a4aa]),[[0x76e2c0c6ae55e;0x26d52551b9f42;0xb4e3945e47d74;0xde09860d614d6;0x3a3d111e32f];[0xd578834f7dd56;0x9bec6921122cc;0xa5bc261fadfce;0x65b1975e03b41;0x7852ac01d6c6];[0x1;0xedf271ecd036f;0x20e25042b6450;0x8e8cdedc43267;0xac839dd0be0c4;0xc4290f266c7b];[0x1;0x1509af12ed7cc;0x268b7d5e0f830;0x3858610a388bf;0x49d46cfd15ec3;0x3ccae1896e1e5];[0x1;0xa9f6a8a01963c;0x3eb95ee11ecc6;0x605484709187d;0x58e3b0c1a7cab;0x22c5736612fff];[0x1;0x259524c05c4b4;0xb78c7bc28a876;0x9aa27d041d0d9;0x1d0f83bb4817d;0x1015f64169001]]);
 ((V [0xd100f747dc46c;0xd2cc4a412fe0c;0x254cd066c0518;0xf356027ad0fbf;0x75e655d1984e] [0xb57863d34bafb;0x1f37f56e52ef6;0xa241638258b0d;0xb8b2db2dc2e99;0x79f26019c607]),[[0x93cccb467db75;0xca920690518ff;0xad03bb8686962;0xb2862f56262d4;0x41a9410e486e];[0x999a87313588;0x5cf07d5d2ab75;0xf59d51055ba21;0x49ccd63b26677;0x318b5da09f05];[0x0;0x6cd53eaf7c640;0xa4db25436c2e3;0xd3b13afa6eeb8;0x8156eb22646b;0x1b85616b20a4];[0x1;0x32000c7b36f6a;0x15d1b13897e21;0xef8a6cb2cbe4a;0xda91cf4e0cec6;0x1c738a147f1a0];[0x1;0x55e0ba3b39637;0xe93bd2031446;0xbd75b0e96aca6;0x69b8b17afa3d9;0x2c7542da6bd81];[0x0;0xd12e1708f8b71;0x47aab2f87a439;0x881e6af8853c0;0x360986b21329;0x6c89e57b967da]]);
 ((V [0x3f394df8c01ba;0xb3e4c12e0d27b;0x7ee73992c0e2a;0xe3daa356c01de;0x4eabd35bb391] [0xadc1f63eed5b2;0x1b067bd0b66f;0xe91d7835afea;0x5d7c41b349ae3;0x6ebea20e1214]),[[0x772b220df47e;0x2d0398b69ac89;0xedfcc6927ee8d;0xb8727381da5d2;0x5aa05d268ca0];[0x5aa386c42f67a;0x4c289402ae74c;0xb2f4ea91d134a;0xe45f2adbc9ecd;0x7672adb99815];[0x1;0x124ce07542d70;0x25e6b0142524f;0x9fc1feaf73487;0x62ada9d991a43;0x804ca81362f6];[0x1;0x951409e5128ac;0xb9c48ed2b5e2a;0xff033c9e99d3a;0x78856714ae7d9;0x31a01abc76a16];[0x1;0x79204496edebc;0xd56128051dc40;0xb50e02edc67cd;0xefe99a153360d;0x234c6b2166e73];[0x0;0x84ae5d5e79e9a;0x2f2328963373f;0xdf53c7c4c6df;0x19253d104db08;0x9f9104712bbf4]])]
 [[0x7f4f24ca2e1fd;0xaa35c89025ee2;0x4952ccb104a83;0x7ae78bc801841;0x48d595516e27];[0xc9df0776a2d84;0xd88c8fdfb175d;0x6404d2584a6a;0x4e2d09d209002;0x3731170997f5];[0x1;0x953304797279c;0x9ce1061dfff57;0xbae55cd6fb078;0x6f2385d66f20e;0x3e07ddd3570c];[0x1;0xe6cd293166dec;0x8148a1d0de8f9;0x638ec0932b618;0xecd6058a5f8be;0x1cd1e7f15ab6a];[0x1;0xf84bbf81f90a7;0x46d9fc580d453;0x7ce24939ce00f;0xbb484cf7c231d;0x1b980c5cb74da];[0x0;0xbeae020ea2a74;0x8b2de5ea86bc4;0x772d7bab246ab;0x352edfa9d609c;0x7986fe36cd91b]].
Definition wit_Test_64_10 : colwit ipt wit := mk_colwit (V [0xa4f931c5c60ff;0x4be26170d2e13;0x49007c7c050c9;0xa7d97dfccbbb5;0x5fd14ac3efee] [0xb9cd062ba79b0;0x9899cd7d6c17a;0x73bb748912ef4;0xbe43c89943027;0x7ca0b3330dd9])
 [[0x728dbf2b5f42e;0xe92a79b76cf6f;0x84f4523d77785;0xaaa4898643b85;0x77e9630b7e6];[0xd2c725530beb8;0xc35d562cd166c;0xa534fb572d159;0xb4401ef5aeaee;0x70d3750e0e65];[0x1;0x49bb1053e5d7f;0x1f4a27a4b0457;0x7c588c34ef855;0x5407ba9d93263;0xaa5ad132af8f];[0x1;0xadf3ad36aee3c;0xd3cd79882f1be;0xd3751779f96c1;0xaa1344b7e436c;0x39739d8e92ec2];[0x1;0x861a93b5e407c;0xc7cab19ed26c6;0x2c2bd9b90ac9f;0xb8eb689a58563;0x20fb88961f2ff];[0x1;0xfee89157c1922;0x2a8654825f64c;0xc8851e9c7ec0a;0xab13c7a28eec0;0xed1ef51a6d8a]]
 [[[0x6cc07f74fdc49;0x9cccca37473d9;0x292f073dc2801;0xd74a7987497b1;0x7fdcfc87b21f];[0x1;0x1bea012152f1f;0x53c00420cd5cc;0x5b85c43005f48;0xe81df0f82e76;0x879892a91e11;0x1];[0x1;0x595362960f55f;0x29cb456fdd4bb;0xa88967b0d59c6;0x5352ef107093e;0x154a677cdc825];[0x0;0x3ccf540bcf3b2;0xd0061df45347;0x8072950d6c612;0xd94d3ea8d2e87;0xf6e942380ec1e]];
 [[0xe8529a81469c1;0x5cb1c3cf3f6e6;0x5f241d233c87f;0xbf20876cfc5a8;0x2f389a12081d];[0x1;0x27a290d49b0a6;0x363e722ba26dc;0xa45ba2ce7d1d2;0xf395a66a02774;0xb935a284c5d72;0x1];[0x1;0x3ef0290946faf;0xf1cc68d52ecce;0xca7c459a92b8e;0x8dec2a32e60c9;0x1ae54cd59b6bf];[0x0;0x5847fbc1d83a2;0xdad5005756bb1;0xd479015f4cded;0xfa21ced08ec26;0x56e0ba23649e2]];
 [[0xb87482b5deea0;0x3e3e5a2a7e363;0x66e5649ea1949;0x4536d400bc42d;0x237d4b8d129c];[0x1;0x515f8b42b3d20;0x2ccb195c54656;0x90c79835ba11d;0x897ba80ebd778;0xcff3ebabc80e5;0x1];[0x1;0x725898338dc00;0x2c9a1ec62e17;0xe5a7708213aad;0x64afbf9c784cd;0x20612a846ce9b];[0x0;0x9207bf4124200;0x442aa34227ad7;0x50fa2a905e724;0xb4c2757581a88;0x3328ab25277e4]];
 [[0x7df19e113b6e6;0x767e8ec40a219;0xa57cce2338f70;0x31a60d28e33e5;0x338f49ec0cad];[0x1;0x4550088072204;0x2352dcce74208;0xbb8764458c0f6;0x9861254bc78e;0xa590412f2e293;0x1];[0x1;0xfd0bd7301f41c;0x660f1a10e5ba0;0xa7bdaecbd392e;0x2e23ecc68eebc;0x211df9659e8b9];[0x0;0xeaba94ac753ba;0xcac1fcf143eb7;0x5aaf7320bdfb6;0xd5a0e70db178e;0x4cb84c6975bf1]];
 [[0x8d1f3d5a84b78;0x69f8a56043397;0x71a64f98c1863;0x3810b4b4b5e38;0x399f7250a66];[0x1;0xbd996cf1b62c0;0x75063c8308dfb;0x74240937a9c0c;0x1491b7c5509a;0x9ea4653bed3c;0x2];[0x1;0xd55f672ccc3c0;0x7f2ab94e4df19;0x8834300376f39;0xe3eae4c2f0003;0x2373be3d924c9];[0x1;0x5010b6de20868;0xda1c0e7061017;0xd57c031760fcd;0x8cdc62b6d4e36;0x14c0100043e88]];
 [[0xd24959d545480;0x476d78e634367;0xe214bd0d752db;0x3d050990cfb9d;0x3f9b1da18edb];[0x1;0xed22efff03600;0xc874244ac1cca;0x18ede2d4dc73f;0xec1dfc9ea6f4e;0x8eac58040a46e;0x1];[0x1;0x693b481a7c000;0xbfcb9fa8afabd;0xe384cb22ee592;0xec1f6a83d2576;0x21d6f9e17b902];[0x0;0xbba64167ae700;0x4a907fea07070;0x80126a0be0b58;0xb446db88c69c;0x6d03a9201c1db]];
 [[0xe98566851cef1;0x4d007c77618e7;0x4b72d138e5ba;0xd48b191d3527f;0x52ff1716b8b9];[0x1;0x4436c95269a9f;0xaa9854eafcc3e;0xcf93bf62a8aaa;0x638b56d1aae8c;0x6b62f0a9f305c;0x1];[0x1;0x6db115e23d64f;0xb6af2dbcf273d;0x5cf15b31ce68c;0x4c6d0a162d0c7;0x1731ff97bf18c];[0x0;0xa2960ee5fd1e3;0xc4ed96a991755;0x56984e93f26a7;0x5d3c9d665221a;0x95f6dc33bc2c7]];
 [[0x5863fe5b6d3ff;0xe64455add192b;0x87b021b13a60f;0x4593de04dedbe;0x22a578328878];[0x1;0x1944334e8b763;0x3c79f97c0b708;0xaf3ca6339c9c;0x58636f9920570;0xc80e564d7f025;0x1];[0x1;0x774370751532f;0xcc7e58f40ab42;0xda612c9e2d2cc;0x7c5b121f5152e;0x17f834d73368d];[0x0;0x1a27e81dd54ac;0x3740dfc83206c;0xfa05533c65580;0xc73cab30ee159;0x3145b2b9e8d07]];
 [[0x38d2868ecb13f;0x31127d791dbeb;0x323dccf281df9;0xd5c50d6df4296;0x38090fa5e75c];[0x1;0x73243e15b9316;0x144a41bdca76;0xb5dbbdfe62a3f;0x67911f2a82439;0xa4d472e39f429;0x1];[0x1;0x4528f7f8805af;0x6b9a535090809;0x5c7e997a4bf53;0x3529ecf00de38;0x1c2ee77529948];[0x0;0x814c1165d0814;0x5b913bae5d6e7;0x5ed0104f7fdc9;0x9090f437b5c80;0x600a4db117368]];
 [[0x848e415fa033b;0xb0c2c208fe5e9;0x1870caa6d0bf9;0xd587e50566d89;0x6ffe13c38a44];[0x1;0x2c22be94e87a5;0xd53dfd2444524;0x47189280c8998;0x7ddc17e1acf9a;0x2a1c498ed672d;0x1];[0x1;0xce77254f03017;0x347a3a56279fd;0x8ed51ee20c68b;0xc148ee7e675fc;0x113d3ac07cad4];[0x0;0x7e5b9b76ced08;0x6d50b742ff1fc;0x11cb85fc080da;0xec8dcb9337124;0xd3535beecb8e5]];
 [[0xab13144f83e1d;0xbd4ba38f91e8c;0x6882cb58b0f88;0x56e943a0cc83b;0xc05472e0921];[0x1;0x89e5771d45088;0x284da1bf2c302;0x478f5f90c0d6c;0x302fcc4a604b6;0xfd176968b975f;0x1];[0x1;0x9bf6a73851167;0x17e50c6bab87e;0x5b863f82f82e6;0x2f5f6df96db3f;0x19c11a7f122d4];[0x0;0x65df31466ee39;0x87ff9c663b637;0xce32ca4e8bff;0x7494c848a1b77;0xcdbdd95f5252]];
 [[0x319c575bf78d2;0xd905ba808e743;0xe372c6077c18d;0x2b08d53229448;0x2b33387c9b2e];[0x1;0xd80aeed63b1b8;0x7620eedfad97a;0x6878e387e23bd;0x80ca244159aa3;0xc4124063c38b8;0x1];[0x1;0x586292242c7c;0xa913c79b2ab17;0x75af94766fd98;0x8d5e416aaea0d;0x182592c50aa29];[0x0;0xbef77b40557d2;0x3782d5a04fa2d;0x5d4d79e81557a;0x89dd9db81d7cf;0x5787270bdb580]];
 [[0x1007459f93d3a;0x5693986b64dbc;0x4de71b2780018;0x5b4ba79fe0495;0x2f656f176c04];[0x1;0xc507b0504a058;0x6109443a10cac;0x45d81d4e7d9d2;0x3f22adde0d34f;0xbb15f705e205f;0x1];[0x1;0xa4d204235919c;0x8405143e5c63e;0x80ea958748da9;0x7a128f65b96e6;0x13fa89825086f];[0x0;0x3be90313002e0;0xfb7623630bf12;0xe66c1d58b42e;0xfdd81550d8da3;0x5e2d7a97a8e10]];
 [[0xfa21120cd0b40;0x3f8a54480a8bf;0xa409f83cab7e0;0xdae786ebdbde5;0x3c6d205b7070];[0x1;0xcd2119af25240;0x8f83e06ffd952;0xdf011da822d44;0xa82f33c00c01c;0xa01ae9369deb0;0x1];[0x1;0x43187dcec7000;0x93f6d5860c74;0x79aecff4e8414;0x129185e6692b8;0x206bfded91eb7];[0x0;0x8a31b6cca22c0;0xfc3a6f2e12493;0xc1882907f0a49;0x1e02444a03f9c;0x7412204b40146]];
 [[0xa30e76c736850;0x4f71cccef6db2;0x348cc3c3234cc;0x146b195cc683a;0x129371c22b93];[0x1;0x63390d821c730;0xc66ace32a8c38;0x7e4331eeda8c0;0x41deeb4ebebd4;0xf47cce0216815;0x1];[0x1;0xaecb722069700;0x845e35e45aca;0x9b3ab3aef665c;0x34946ca342b7d;0x294dc0527a4bf];[0x0;0x575e5c32182d0;0xcbf3a0bf3dff9;0x235d4c3566f29;0xbd624685468e7;0x1c2f92198e68b]]]
 (V [0xff40886e8a07d;0xf0e44713b7038;0x23efd8a765106;0x86a7577a42d43;0x451e2afda14e] [0xc44afe7e57949;0x3874f204eb27b;0xb032c7f774e29;0x5c212f315e215;0x3d0b2913cdf6]) [[0xb886742141e52;0x12bb121310c49;0xaed3e9ec8fd50;0x653efd4ecaef0;0x496b2c54ff85];[0x1;0xfc6f29561c3fe;0x2df9395ddc82b;0xfcc456cb84ed7;0xb38b0ecf8694d;0x833376ae2124b;0x1];[0x1;0xbcedffb75867c;0x3e9284c8bad5c;0x9a3b5bc55d70f;0xbf327e5d3776c;0x1f0220be5599a];[0x0;0xb819b0cc8a716;0x2cd1d090d8da1;0x48bc29de3e05c;0xd4d58066e22dc;0x8c4df496e4371]]
 [((V [0xc714333f4df45;0x8ba48739e2769;0x8bab3793aa2a1;0x7e491cf1cb175;0x277696c19702] [0x20e6202265128;0xa4d124a6bccad;0xe0f2d0e080f80;0x9e29b5be49fc4;0x7b87d5c4155]),[[0x53e9d3ec010b3;0xd74ce966da2a9;0x634057d4b3966;0x7c7e6c9a748ae;0x62a61222f52f];[0x21b663f417aa1;0x6dbaac581d2e2;0xa70fdb87c36b7;0xda590a7128caf;0x2f391b9f219c];[0x1;0xa2603873e77a7;0x474c266602e84;0xe69adb324d273;0x64a8e0fa6622;0x391fa9c89bfd];[0x1;0xa1160c03c3a0a;0xd91779550e5b9;0x636cb107298c5;0x41619362eeb13;0x1bd3f28956f96];[0x1;0xc4abaa24b7d87;0x968b41511ae1;0x12b2c628be813;0x8ee1a7b0e2858;0x1175eb63d1e90];[0x0;0xda8d5b27c21bb;0xe0bfc0eb22602;0xdf3e821d95b39;0x3c399de8264b3;0xc44bbd0a75c70]]);
 ((V [0x87beae2b99496;0x4bf4933d3888b;0x2efe70f897277;0x355ba8314e166;0x5388fc92c023] [0x2f09c548049c4;0xa86332c9dfd6;0x4fc9746a1f6b5;0x8a9275555e19c;0x4954620712c2]),[[0x27dfd59afc45a;0x3031d592f8d98;0x1ab22c08ca16;0x2632b3020361d;0x1e7d5cf9547f];[0xa15a813d08422;0x5afae54b344ef;0x4bf8be7e616a4;0xe62f61d835d0a;0x16d678b2ad8d];[0x1;0xeb1346a710717;0x36619d97e2088;0xf12615d0443;0xfc197197a3bdb;0x21823fa8bc98];[0x1;0x74615ee1e15e0;0x7643e5466cb7b;0x619cbd88ca861;0xd3a90ef6cfdf9;0x1855939e0b255];[0x1;0x9ae012b838b1c;0x6c64e24363787;0x88dd5da362ab7;0x727ba7da5801f;0x13da915cf2233];[0x0;0x48b4353bc8200;0xad72d83b936ab;0x8847567785e2d;0x858ae3923a33a;0x3418fc385b63d]]);
 ((V [0x8f6a2c3a2a668;0x885bd968c550a;0x1d3c7fa6aca42;0x8f740b01e2eb9;0x51d4fc7aa992] [0x760f9de4f2f50;0xf3075507bb392;0x292995ba386e0;0xfe554c4d32a7c;0x7c1d1075247f]),[[0xfb4c220a67a39;0x7d46f27a554aa;0x768c6372cb2e5;0xc720bc4037774;0x68585028858a];[0xdc1ddbf3e890f;0xaadd5eb956916;0x87f52cc345f1c;0x84584f6cd38d2;0x15fcf79b6e4f];[0x0;0x5b41f47150124;0x5f987d34ffad9;0x7c70ea1c46f77;0x681db4dffc0cb;0xa8a4af21ec9];[0x1;0x178aad1572c38;0xa2bc22b5d8cd7;0x78c47c4bf8059;0xb3b478c6079a3;0x10c5f7e7a655e];[0x1;0xaaaf573f47b7f;0x545e213a77790;0xe4fc6c6d29646;0x1e2e3ce56fb60;0x19cbe2c1010c6];[0x0;0xad818e8687ff7;0xc3541f071018;0x72bbe49983d38;0x9a17ddea8b78c;0xbe9e2dd257559]]);
 ((V [0xa33bab4a1303a;0xd3bfa0cc15cb5;0x1e605a48a18af;0x2bab30f7b97d8;0x1ced45982254] [0xeb004bfdbd0ba;0xb3d8f1265e747;0x1353615efede7;0x622555128a0dc;0x68984bab90b2]),[[0x2358cbcb18444;0xa7f17519965bd;0x32e705d492371;0x73cf244efb51;0xdd64179f1d9];[0x50b943e3f811d;0x5e84e54ce7702;0x21c3567fb0a49;0xfdad385875bdd;0x381fe359c879];[0x1;0xd51e975bfa1c0;0xad875b87b1808;0xbad6ba0d86fbf;0x57132d7e06df1;0x3beed4c20a01];[0x1;0x794b06f7e5580;0xaae7be10c778d;0xb1c1a87ef7916;0x7d52478ee7c8e;0x235e9ec99df13];[0x1;0xb26e1c363e0f0;0x940c3e72214ab;0x49aaf5d931239;0x84308656a2f2e;0x17faf912b1493];[0x0;0xed358a728767c;0x81489853db8b2;0xc8a35540fac1f;0x85512528c1e13;0x4ebcf7f98eb]])]
 [[0x3a49ec2c669ff;0xe0fca80e672cc;0xec83842c7cb37;0xec3a0451426a8;0x7cb1245e8762];[0x88290c1d6b693;0x1d8e3421ad840;0x69f7c86af0016;0xd02ee3f4ac14b;0x41aa25fe484d];[0x1;0x9f30e2c8db59c;0x2745ef4c5e20a;0xdb7ab1e80e6e6;0xf3bcdc5a6bbbe;0x7ccac5b62460];[0x1;0x3e24e899657b4;0x12f58131f301b;0xc7b5626c134a8;0x85568a6a4bccc;0x1be3450b7db7a];[0x1;0xe943062a03f2f;0x1873dd7f2f7f8;0x38f1b22a2c6e9;0xfbfdf06ea5170;0x7eaa73bf6416];[0x0;0x66254eb1e6008;0x5148b6f311ac0;0xeae7c9850bb9b;0xccbf490563eed;0xeab5b1f759086]].
Definition wit_Test_64_11 : colwit ipt wit := mk_colwit (V [0x1ea6e03819e75;0x4fc7d3dfeff1b;0xdb7febd3e853c;0x1682e67989dfe;0xb956ece97c5] [0x45a386d765cae;0x642a6cf927444;0xd5554d64021e1;0x1cb2e4a879d64;0x6a820af3a48d])
 [[0xa718fd5a0a6a1;0x6f1b8c09e6eb8;0xd8fb2f8dba01a;0x4a1266637ca1c;0x722d5ce83d81];[0xf6e6c8bf02ea;0x632ef6ab63b15;0x1095b5fbc8116;0x8cf2c16951766;0x5fe53018b8ed];[0x1;0x92141f09d47;0x857dd3e3bc22c;0xcbd787c5fbb75;0x9869b44451a4d;0x9d89ce2036b3];[0x1;0x636438327f61c;0xc4a8e56b2d7c2;0xb823c741fb4d9;0xae5e4cd8e4bac;0x2d9b699929f33];[0x1;0xdc41ca384f5ef;0x43849edcc81e;0xa035cffb6841d;0xd17fea6c8a92c;0xba2d12052cf4];[0x0;0x7269f0880c37f;0x13d9bd6a53db4;0x84ed337ece5a0;0x7c0fcb1bdcb59;0xda198c47e4347]]
 [[[0x260b2c8a18033;0x413b96ba4a3c7;0xe7a7188f89e56;0x4244432ce2952;0x3b50f6138a9c];[0x1;0xfc2a8bffc1b07;0xd3536750ebb91;0x50ccc7b35a96;0x9c270f1c87514;0x9d6ee1c8349e8;0x1];[0x1;0x5a1b1f480c087;0x3d6a882d86250;0x7fe81a9473ebf;0x1176a447313be;0xe54c958d135f];[0x0;0x4f09340f8d765;0xaa65625b352d7;0x1c5741ba01f4a;0x2bf35915fd6a3;0x72a5b1f8134bb]];
 [[0x32826029e636c;0x463f6d6763dda;0x431a466e63c68;0x314157f07ab44;0x21665c0b6f87];[0x1;0x6b2d76c523134;0xb48c27d03a857;0xc1c5ada2b0581;0xdd6293bc5e469;0xd80a5f5df709b;0x1];[0x1;0xfa6bd87248570;0x3c6fe0944740c;0xc4c0f8c8e2905;0x432e63e89ddac;0x14bf8fccfb4c0];[0x0;0x3d2f08186b02c;0x42b9212017b3c;0x7573fea9bce48;0x9719b3ce7f87c;0x3730ea95ea7c3]];
 [[0x2d61048d18638;0x6b2fd0dbe0c27;0x5dd288c280eb0;0x15cdb598156ad;0x3db29d5942ec];[0x1;0x90a78e628af88;0x3fbf9dae2e855;0xd065b8f62a950;0xa90959c3717e3;0x953c80ac60e03;0x1];[0x1;0x42d9612a05fc0;0xc3bb24392dda5;0x927ce7bce4c5c;0x51ba190e4f231;0xe37e4282b055];[0x0;0x16eed96e86c40;0x1bb36d3d49cc1;0xfb67a30b04066;0x3c4974a7af415;0x6803df8a078a0]];
 [[0xbd6dca66c463f;0x14b1bf3ab4ba7;0x1189390ade6eb;0x5f8ef7253ed09;0x706b93101c12];[0x1;0xd9a4689f7ce90;0xbd3e7a2fe52c5;0x9329c946f5371;0x71b32268ec833;0x26ce1dc12dcdf;0x1];[0x0;0x590fa50e43051;0x990572d464f3f;0x10dbaa719b6f3;0xd5671002de241;0x1b24e054b187];[0x0;0x65bd0bd4cc7b2;0x1ef516d40c8b6;0x35eeba7f13b4;0x769ad26afa169;0xcc2ca33484d01]];
 [[0xd490cf6cd5803;0xb747cd1923587;0x309abce8b70e5;0xaaca35062a1d6;0x672829d272dd];[0x1;0x43d79225a1149;0x712043d8934b4;0x4aac4b4266b8e;0xa6cd1c3950d3e;0x3be5cbe50914f;0x1];[0x1;0x71569a8b774a7;0xe165fbddd3520;0x22741a5d6a10;0x3d1185362d51e;0x149adc673f28];[0x0;0xb159e5cf8e0d1;0xf001d4e2d5ea7;0xb47c61f952f26;0xd120762793723;0xc4015a24c662b]];
 [[0x6e88ed5dab12b;0x7af4b8aba3523;0xc0073a887546e;0x2f49a83103055;0x509fe335a1a5];[0x1;0xd702e76907543;0x2445dd0cbc985;0x57129b3e94b86;0x1b339c543cf32;0x741f7f0e773b6;0x1];[0x1;0x1b230d3ea9077;0x2cc0663b07ea6;0x1dc26e2e44ba7;0xdd30d5701539d;0x473d0a49f110];[0x0;0xec4f5c9ed3736;0xd11ab43498570;0x89fddb9c32c8f;0xf3f87a390795d;0x96184721bfd2d]];
 [[0x1ae2342aa3c70;0x30a6b24ff174e;0x17662d844fa23;0xa79f9912e4b05;0x78afba776163];[0x1;0x4db898c63a780;0x588dbfbb524ce;0xc23c681372807;0x554c39eee8633;0x185ff9cab1b34;0x1];[0x1;0x4a2f412977f00;0xe1d71b560ccba;0x981a29aefa5ba;0x68e88cb489c4f;0xbb11f3d40a4f];[0x0;0xd605a24534a40;0x7db0a236e4814;0xe107674c68346;0x37e50d494093b;0xe21cfcccb3169]];
 [[0x916f3759cd4ce;0xf3a61f74bef42;0x657baae774c9c;0x88fc36eee72a2;0x7d27542edee8];[0x1;0xcd81a741a7936;0x1a2d9ea83325f;0xd2c83f2042567;0xf33f3b4abdb99;0x1cbde1308d757;0x1];[0x1;0xee0b6d5362afc;0x8fc7ba62c9065;0xca7db1eca4828;0xf4a1d05c04e9b;0xf2de91cb63d9];[0x0;0xf8ec2f4228252;0x2d8bef3048bf5;0xb57cbdd1c71a9;0xd6b655a620748;0xf374139cb4d47]];
 [[0x6ee5e46262980;0x53152debc5b79;0x6f8b048f74672;0x6d875af1876df;0x69ace2c5ad52];[0x1;0xa9f95168da680;0xb702d898f0749;0x7b77012e20727;0xfd75d205dd3ce;0x3834f29fdd4f9;0x1];[0x1;0x77de252f1c000;0xae317b319c393;0x9f93a078481cd;0x4e93d39c7003f;0xcc7fea85fb54];[0x0;0x7b4b4e0a2e180;0x234bbaeca84c0;0x746ddcdc09630;0x2682130dbea3e;0xc5998c52e68b5]];
 [[0x5820b80ea519f;0xc20b315d359d5;0xe8f4f175d05b4;0xcb7a4a7da1f72;0x735d69993f4c];[0x1;0x22a8e6c7f4931;0xa06257a377adf;0x78e5da308292d;0x6b5d2b790114d;0x2d4bb0d01a3ad;0x1];[0x1;0xb4b3c6b498e6f;0x34ae1a7aa0912;0xf3678fa39f7d7;0x779265fa58a79;0x11dc8bed96c36];[0x0;0x5d2471afedb5f;0x53d31c154e788;0x50532923e5769;0xb71c4605804dc;0xe03260c0e6def]];
 [[0xff46670bdb2ad;0xcc487a875ddf0;0x5e6e92e890232;0x72c14c4ff0e93;0x279ffe861208];[0x1;0x2afad36240923;0xa79374103a8a8;0x55ef197c6099b;0xc7089414e5f7f;0xc70af34305823;0x1];[0x1;0xe544abb5cc5c7;0x4422d97297c4;0x2c95f646ef373;0x42400607c9528;0xe4846e44f3a8];[0x0;0xf13011628e095;0xa68a9b094cda2;0x67665fa60f103;0x51f98881079b1;0x4251b20a98f2a]];
 [[0xd701f41f03946;0x274728084655a;0xa36c4f6ec4c99;0x9b9a9f506c3a7;0x4d3f5842def2];[0x1;0x457a9948458aa;0xf1110f09006a3;0x613578f318f2e;0xee504ddf1cd67;0x72a50d4afba9a;0x1];[0x0;0xf2af1511d5c64;0x8dccc60439615;0xeaf0b48cf34bf;0x39a179e15bc32;0x74f4a2513de];[0x0;0xba479e1f9cbf2;0x315cb38384a28;0xd84f0ab254225;0xcff6cc3685544;0x8d28a3e39d253]];
 [[0xcffa7cda9d701;0x6a26d22d0c2c;0xa7c2ee1ce5cd2;0xa196f369cd6ca;0x7a0f0c8edf01];[0x1;0xe72d287ef6d15;0x6dc530e85c83c;0x4a4bcc81c94cd;0xafbaa0b695499;0x1a1a6572f42b4;0x1];[0x1;0x4fbf478711d2f;0xd83832f59b586;0x1be83a6f2db0c;0x9046a75df1b66;0x39776d9ac3e];[0x0;0x8414df8678a5a;0x400c30c3fb3e7;0x10f8b2f15ff5d;0x4ac0af51af65f;0xe42268c63d5f2]];
 [[0x57245ecef3da2;0x620bb766eea6;0x78474ac938b66;0xce2c9e03ae18f;0x4fb007e15141];[0x1;0xdbd4abd88c138;0x19c7a38b8cd44;0xbfa89e753b29d;0x7da5953f3660d;0x6bf3515a6b3d8;0x1];[0x1;0x7baef688a8a3c;0x99da53678cd0a;0xb5d5c922ff7b3;0x6adbbdc0dd9fd;0xc04a2351c2e2];[0x0;0x319470113a15e;0x7ec80f771f9be;0x4fa7b8a2e2ca;0x25bff4e181902;0x9183dabf26719]];
 [[0x2891e447d71a6;0x885f8e37285ae;0x1f18658c4baa2;0xf1c0a110c0fd8;0x3739b549e29f];[0x1;0x52fe3d78fa3b4;0xa98e5108c88d8;0x460280bb0adc4;0x4eb728e1194f2;0xa927f3e22ecfc;0x1];[0x1;0xe7964bdd3031c;0x13e2d4ffe894e;0xb10b59976bd43;0xbf9c277ef5a1e;0xb5e96fbab260];[0x0;0xf3c43a7a8e490;0xe7486b88a9c21;0x2f3bf89a86fe9;0x31aaf85e509e1;0x6c8587e3c9cbd]]]
 (V [0x7605c9f6e663a;0x7b8f7cbed9f24;0x11df41d36ec4d;0x99c0031ac7ae1;0x7be9e91ecf05] [0xc8bcf33207572;0x3bbe6253de781;0x375738eaa41f9;0x82328a7c1b316;0x4f49f87b406e]) [[0xd3eca0088d4d1;0x19c44382e2036;0xd07fb2ee8f0ba;0xe8c03bd1ced4a;0x734603ddd9a3];[0x1;0xbb3e2e2809c59;0x6ea269243f6ae;0x860b769a24c5;0x5ba3ab38c9c34;0x2451bb148bc56;0x1];[0x1;0xc08bd3488b68f;0xdb59cd4935a39;0x49b645199e503;0x46dea42adb69f;0x14735161a628a];[0x0;0xa5480f8a749b4;0x99402ea8c5d91;0x9a164321e518f;0x71ac06563023a;0xdb8a710abd42d]]
 [((V [0x956d0b7e96dac;0x8a44661f08361;0x4be18a70ed3a2;0x220ddfca0c941;0x7bce1d786a5b] [0xdfa465750348e;0xbe37fa3e91db8;0xa32bd9b4a45a3;0xec32225cd0fdf;0xe6d0c32c97c]),[[0x3ef1224a11a84;0x654d693473ee2;0xd5af378816916;0xac87e27ce0791;0x43a9e3662df8];[0x1b626537013b7;0xd59639aa21737;0xf79249fee53c0;0x33a9255a77c9c;0x771f678f382e];[0x1;0x8dc9e5a2bbd9c;0xd6919bc174356;0x71a13bdfb3bf4;0xc256c87eef7b6;0x764997a2ddc1];[0x1;0xdfd5b63b3f570;0xf54210e340d18;0x399f7ad7d3425;0x1dcad871c307e;0x376e8842d2ffe];[0x1;0xa23cf789b5ef0;0x83ef2e7e794a0;0xdd8bee49dbf26;0x35369b4abecff;0x2c37f23e10ade];[0x0;0x3ef83dd8c9dbc;0xba6954699d9dd;0x7c6914693d3d2;0xdf2b3123ce299;0x7fd86f84d34f2]]);
 ((V [0x5fb04eb4cbfff;0x745ceec7b6f18;0xc526d8fd85392;0x24d3014426a15;0x61a2bc666bf4] [0x355cf39cfce8d;0xbf3dfdd503d59;0xdf7feeadfbb14;0xc3edb53fb3b71;0x26439abc8c45]),[[0xdccd8910f5485;0x6fd27b86e48cc;0x4a5d55fea79f;0x2bb49359ae3c4;0x5f24956992db];[0xaec2a697e0dea;0x6f6a242e59b06;0x4bd8641ba2b79;0xa3dc9c4200fab;0x73dae49b0305];[0x1;0x7318b4c696f70;0x599a9ee5161b2;0xd0009b28aa1be;0xcb77e3160abbb;0x6ff65cabb744];[0x1;0x45dee1e72e2b4;0xd0c8c77e500a4;0x4112af42d5b96;0xa70f69f521c05;0x3a1af3e822612];[0x1;0xaab8cbd831a97;0x1822402d274b8;0x48b72bc2a87e7;0xc0bb0792f0358;0x26bc59671118c];[0x0;0xf7665b2b54ed6;0x8c2599b277136;0x672dc62cb3cc7;0x1bb6e50215138;0xbedc9a187ff36]]);
 ((V [0xc7c65fd9b8774;0x4250a1b2d1972;0x34a42fbce27aa;0x1e44b2b7723e9;0xdf292152de2] [0x71ae650cf32fc;0x35bac9d7140cc;0xa57c2758c338e;0x5dfc13ea36876;0x21b100a867a0]),[[0xfc1b9d5ea7e8a;0xd95ca2abe3279;0x12afc65f6fd41;0x8f08d3a02dad8;0x3e8cae652eff];[0x368c1aed91697;0xfb14736504810;0xa0c5da3812a6c;0xd79fc3793a390;0x5f5d5f2b52a6];[0x1;0xc04c3498cab2f;0x804617d991758;0x77bb40d52e55;0x3660ee9972245;0x744149e57121];[0x1;0x255250be670bc;0xb9371ec4468bf;0x711dc6f2f1b56;0x6e5049b561bbd;0x316caa0f68018];[0x1;0xb9cfbbfc51c5c;0x1bbc0c5ca60c7;0x31e302ef522a6;0x678f0bdfe0a4;0x183df32339b1b];[0x0;0xe21f4d94c4e18;0x2bf91472fd406;0x50ea1653a5d8d;0x55d5ef569bb6;0x7a91e93746b54]]);
 ((V [0x5bd67cdc01837;0xe5597d9106e3a;0xd61f3ba383ff1;0x64fd9cea5b769;0x493aa4e100bc] [0x5baecd21e46f5;0x6a15f8e71e9e0;0x77723e8bc7823;0x16e7bff3b1e40;0x11220e03d953]),[[0xa99de0250707a;0x24893a0ab7fae;0xe3289778b6482;0xebd98ec8010c2;0x196cc79f5ca1];[0xffbb2bf99685e;0x2bbd270bc1f84;0x5549e65260fbb;0xd6050c00bfdef;0x3fb766447717];[0x1;0xa24416e52fe70;0x5816c4da84e57;0xfe88d13da692f;0xeab4bc3f43e8d;0x7de9bb2b9a0f];[0x1;0xb22f0973b80d0;0xcd80565a85a4d;0x9322dd6134687;0x8dd0ede049573;0x270e9fd91a358];[0x1;0xf3c528b3f89c;0x751617dfd6db0;0x611cbcfcda4b7;0x673f2b2375aaa;0xc532b7aa6493];[0x0;0xbc61127e0996c;0xdba839053efff;0x4531fe45df5d0;0xece37872ad6d8;0x2d5992942e828]])]
 [[0x6cb442a44cb6b;0x570600c24c6d7;0xc565df8387567;0xbfdf83e622490;0x493835468eb4];[0x1edbffe4ce524;0x1cc138c41804a;0x5ec387b88266c;0xdba983d4e659a;0x1571b3bb5be];[0x0;0xec13b364209a1;0x7dddde073b8c;0xe1e96346faf3f;0xf4011e45bb000;0x2736c87779a3];[0x1;0x78d1603e081d2;0xe55024074bc3e;0x9d0dec6ea4441;0xc0b8c69b4ac6a;0xf470bf5a8429];[0x1;0xf24e2289af6f7;0x58458f894331c;0x540f8575f5f47;0xaedd3013967ba;0x19c4e76e51f57];[0x0;0x37d6d87fa28d2;0xb19fb7b096548;0xfacaca8b35335;0x9551593a21f7a;0x89b28c8115b2c]].
Definition wit_Test_64_12 : colwit ipt wit := mk_colwit (V [0xbb1eb894ce624;0x50fbd19b7848f;0x571da91d5f5d2;0xc5b21d19f58df;0x69861df44bbe] [0x1237a6a1b142f;0x5ba4dde854037;0x3bfb5f9d0dc8d;0xe352512e32f47;0x7018e1c1712c])
 [[0xcc2f701460185;0x5b48afcf2b90d;0x3c76e1d64a9e2;0x598fda230b969;0x5149e353033c];[0x31a723adaab11;0x8d9e136c2fbf2;0x2667f90775d06;0x5f63118e7ac7;0x141f3ba669d];[0x0;0xfc09cb6324e04;0x2de402e31b2f0;0x77bd5e448651;0x646aead5f6732;0x3048b7c1813f];[0x1;0x86730606c9dc2;0x4d050b59bc953;0xbe05ad26afe88;0xdf9dc25d95df4;0x98ac88019340];[0x1;0xcf1e45efcb897;0xa9e72aa4a929c;0xf3e0b94ede364;0x45dbae498f120;0x1e1f8bf353f28];[0x0;0x738d342e2f68b;0xc6f9ff20d99d7;0x6eb4501c2f972;0x46f2c6234c80c;0x8dbf14d33c23b]]
 [[[0x6473dad70d859;0xf80425d0a117b;0x43d9b069fc67;0xe0d46e1425ae8;0xf8cd2a4568f];[0x1;0xdb16cdaf6d505;0xe210b9e8b6b30;0x498326f669d92;0xd71e7de20841f;0xf2d6f70c5596d;0x1];[0x1;0xab7304c45f93f;0x45782c656b854;0xab82cab53e621;0x4df93325becf9;0x1fe50ceb0b7c7];[0x0;0x5e9eb355af3cb;0xab159a37e5f29;0xd4f29b790000e;0x10d5fcbb4ca51;0xd14d1b62cdb3]];
 [[0x9b4b9b411473c;0xe407ff4069bb0;0xa3f14c383e790;0x26deccbada084;0x1568e9b1c62];[0x1;0xdfcb3c7c59814;0x33d50f0ad9fb7;0xb582d2d7d0b14;0x2db16f35bb94d;0x13118a983bdd3;0x2];[0x1;0x94cac3e4a7cf0;0x7c12d60079930;0x1de9406db75a0;0xd69e9a7efdaef;0x21f543bddbfd3];[0x1;0xde1c84c1820bc;0xc509340071029;0xc9cf32538dc41;0xf7a729b7028f9;0x7b3ee7a6934e]];
 [[0x92a59a0f66eea;0xa900a61fb0016;0x7f0c269b4afa8;0x6ae3c860ed044;0x4a026a74c08f];[0x1;0x330b33e5d0a22;0x4278208b9c434;0x82df25fff76ee;0x88e3a7da727d6;0x82bef513e9180;0x1];[0x1;0xbc60e2dd7f8dc;0x143520eee63dc;0xcf1cd01a053fd;0x73f2d1d41fc18;0x21923e51c0630];[0x0;0xc839338b82c96;0x5b5de4e87777;0x898ac4cb6fe3e;0x4d55ab24c8ae2;0x8cdfdbde9aa09]];
 [[0xa198d7099a5a0;0x2fab5f69a0d45;0x9d9561d97f001;0xe2fbfb1acac;0x6df4ef169ccb];[0x1;0x50bf1e2e25460;0xa4fe165bba70b;0xef9f5ca9bd233;0xe76f57eb23c4e;0x30867006b6065;0x1];[0x1;0xbbc1fa3931c00;0xc9c83e3af6943;0x19b025722a46b;0x88a03def2220a;0x1383cfcd4b4c1];[0x0;0xb49d468b06000;0x75e4dc702f394;0xe6c8879b2029b;0x54b68a7aafe94;0xd6e0035623806]];
 [[0x90e4101f0e2b0;0x7b5c03676e89b;0xb3cebfb3ba91d;0xd4db8145b7872;0x4dbf01daa0f6];[0x1;0xdf616e3a4e100;0xae90e539fb317;0x1d2724bc0f164;0xe757fe212c1e4;0x73a88c2b39881;0x1];[0x1;0x596fde5f27700;0x1a34d88b46ae1;0x1a9960f573508;0x8d464adf379f8;0x186916b8fb9d6];[0x0;0xf9674d78c68f0;0x4593fd7ed5a74;0x9784c3f9fae63;0xb1d05faf831e4;0x8be46c81653fd]];
 [[0xfd4cb8e6a59b4;0x3d772ee321bed;0xce4e9eea427e2;0x7e32e9b213c56;0x7d801692ec94];[0x1;0x4e3bb45d9c950;0x7846a9eedc28;0xf7f6cd319a4f6;0x5377260707391;0x1089cd79b14c5;0x1];[0x1;0x6b254a86ac470;0xbd6e96c2a941e;0xeb28c2cec6d8a;0xf4bf9e3d3eccc;0x18bc22db09cc9];[0x0;0x90cdfd185ba54;0x386a5a46eea9b;0x5265914d8c8b1;0x34d8ee9159c99;0xf3ba18f093d09]];
 [[0xe799ca12ef983;0x4940be498f3b1;0x38c01d10dd908;0x90703605346ca;0x5ce2d26eebb];[0x1;0x57ab7ddc1e074;0xc4bec45c5aa88;0xedcad17e950c4;0x387cdd46e601f;0x9ff2acc4b0b5;0x2];[0x1;0xd1fb865c81ba7;0x4f42a593208cb;0x7256d9b46beb8;0x844ba3cb94433;0x16e6200f54679];[0x1;0x64fd940a180fd;0xf60deee555eb0;0x976e6a9d150db;0xb808824954b1f;0xabc77e9f313d]];
 [[0x2c2034795e1d0;0x5ac8736bbd2bc;0x10193bb4f0c00;0xe2a7ba5a3342e;0x4200c0b203dd];[0x1;0xed73e107ea2c0;0x5b0d68579aef5;0x22f5e42712b42;0xe6421fd3039ea;0x847c07d05ffa2;0x1];[0x1;0xaa1abfd16700;0x852f55e394793;0x2d86351cfdcf2;0xa20997467cbe7;0xfee8f43769f0];[0x0;0x923a1a8fbf850;0x16ea812e492aa;0x250935469d912;0x1c21b4d97589;0x7722af35dd462]];
 [[0x9d546aabee2c3;0x56c8a9e9f0f4c;0x340061ed7626f;0x3382c56c968a3;0x4d2236f8bac2];[0x1;0x92b13dc511c;0xd6babdccd265a;0xc9e734622a79c;0x65e70ddb3a3c7;0x78bc5ccf67e69;0x1];[0x1;0xd2d6e6e233c27;0xf0e26962d1a5f;0x43d61464950a2;0x4ebeb30fd12f8;0xe6ecfac0adf7];[0x0;0x7df52495f8a6;0x3f6901d2a4dbf;0x418af5e516170;0xbd9df460ded5;0x9b665632dd8d5]];
 [[0x9eff970d422ab;0xf894371e2c7be;0xf34b2011ff64d;0x23548616c77ad;0x59b6376de548];[0x1;0xc58b13a6b98d1;0x16d8538860825;0xa6aa6973b2219;0xa5249c8bf4518;0x60abeb1d873f9;0x1];[0x1;0x98d3bb3665f77;0x9ede7935efc89;0x78567da5f273;0xaf507a2212e15;0x167237713989a];[0x0;0xf1759498da0f1;0x901b752fac632;0xfc4a720c9ad98;0x2b087562b1b2f;0xa7e0f56a3e436]];
 [[0xc14a19c2c89b6;0x3db5a6d72319;0x84e4a4d8f84cd;0x8b93d1b64bbed;0x2fa9237f7587];[0x1;0x249140fd70c36;0x82b674a1f35f7;0x143347e121a78;0xe1d656aa98b8c;0xad656edf30199;0x1];[0x1;0x746de3d36015c;0x73ab7b08aaf0e;0x153512839584;0x4af7f02816e47;0x237c4542a11be];[0x0;0x5534c11d685e6;0x470ba3f7b0970;0x1863ab3b3299;0xeaeb824bddbbd;0x4d2ee7d7dba46]];
 [[0xae8d3286f3514;0x9a7482d6b4a3e;0xc8afc6fa9cf86;0xfdbc0f800f3a4;0x65e9299ea26d];[0x1;0xfef805db186f4;0x1df74aaf0661e;0x28768826e0743;0x2f0fd3a1f5a28;0x44e2afc23db26;0x1];[0x1;0x4a4ef91efb170;0x13a2e92af0db1;0x70c363ce6c25c;0x6fc98711dd5f7;0x1c9b295544b13];[0x0;0x42f56a3b38a08;0xf7a83b5b47aca;0xb79c03f57e904;0x2dd98c52e7f9b;0xc6c6564081252]];
 [[0x3fafffdd1b12e;0xf2f600e679fe;0x4c9dc6ee33145;0x58245743ac011;0x6426e3ff03b5];[0x1;0xaebadab7d8c0;0x1086da20a76bb;0xf329f54175a99;0x997182dd3b2f7;0x467f5c4f12f1e;0x1];[0x1;0x71318aae5947c;0x13bbc17e66e65;0x3b223183bc8bb;0x7a3d11b33a0c0;0x19663ecdb097e];[0x0;0xd8a25fb443518;0xfb8ff00c99d97;0x2790b92910adb;0x717f638515d32;0xbd975c68becc7]];
 [[0xaf24a0dede41d;0xa8ae7f5bd9eb3;0xf5e6ec6b65c21;0xd1f2c984f1705;0x4718fc4fdaa3];[0x1;0x816d43bcbb759;0xc17483314af58;0x4f6887708cf16;0x8a4f12d808d02;0x80f0002f07434;0x1];[0x1;0xf84b778b2b567;0xb3474bdcb264;0x87a5d35c9073f;0xc0b5cbdef1589;0x1e76b34268607];[0x0;0xed8b56f8c0c68;0xbe9b28d9d505e;0xe4563d83efe68;0x807df6cf4231;0x80d7e01299079]];
 [[0x976245f0fef62;0x765ea27369b61;0x38f445195a0f6;0x821ff64d891da;0x4d48fccdce93];[0x1;0xd600812ef604c;0x48082fd0b056;0x4dff285f210ff;0xe5d579c42bbe6;0x757effece1d8d;0x1];[0x1;0x96dde117f533c;0x2665575469c4e;0x4a5d453ba7037;0x1aeb434d0f73f;0x18b969b6532da];[0x0;0x9e0a6b7acdcf0;0xb7650bfdab105;0x62444889bc14c;0x8d6c91c5e42d1;0x896bc5f8f815a]]]
 (V [0x19667f05a5f08;0x62fb3e97b3c1a;0xc9446001326a0;0x79e968ae649c;0x125877b9ad54] [0x4163f9c9f7987;0x3c1e62a31ab79;0x60a0f8f62530a;0xfde9d4d0dc995;0x6d73350403bf]) [[0xc911f465461c3;0x77d2783d50661;0x35ee83e300a4b;0x61551007db61c;0x7e962423f8b9];[0x1;0x7a187c9201e43;0x1be09c46b9f5b;0x5747b5ebfbf18;0x6b938a65d95c0;0x3698479d389a;0x1];[0x1;0xc0e1df0fba227;0x57a2c725ac155;0x688a54b7226ca;0xbba7ab29b5c19;0x8d66ce4dc544];[0x0;0x2726f1a30a3a7;0x647b9f8a47143;0x868be952bdd02;0xf59cd0cb3ba7d;0xe8d6c7c053d06]]
 [((V [0x245e2281401bb;0x21f79b8dfb972;0x699060348f6c4;0x617a3e914cf99;0x62a712533db2] [0x829d94facde1f;0x8b4b5d44c459;0x9ebfdb267594;0x747b318b887d2;0x5d5f5b0414d6]),[[0xe262c50db6356;0xab377c73b46d3;0xb637529b94300;0xc505302f3ff11;0xf46eca1da48];[0x45e0198ba411f;0x5b750600bae95;0xfdd2faadb95f2;0x9f7c7c549736d;0x49582b1c3137];[0x1;0xd54d61f80dbc0;0xcedee8e365df5;0xb7b504d1be82b;0xfda9b47cdc943;0x900f37671a64];[0x1;0x8a069abcf4d0c;0x219883fc5aa02;0x546cd705a718f;0x985c2d2eebb16;0x29df0b78c9b6b];[0x1;0x6358e09d0d5dc;0xbdc0f48701cbe;0x982d0c4d00cdc;0x72153883a13bf;0x10cdd3ccabb0f];[0x0;0x80eeb9f2fd954;0x90b483c508d30;0x3cf25c06349d1;0x6049ffb46507e;0x58e9ab3bee71]]);
 ((V [0x51d29d2ff33c0;0x1fabac3d4d0a2;0x70c78a014cf2b;0x701e8285e3a4b;0x2059b8724eea] [0x7d323c72c0578;0xe806b38c7640f;0xbd0be74c538e7;0x7cc6aa08e0f49;0x1a8c4c701580]),[[0x32960c55aef26;0xd5b900f134c1;0x551be3f921c0c;0xe43e27f5768cd;0x1b3178e9a33f];[0xb6a2b11f5071d;0x76513660db5f9;0x93c4224ef7636;0x183755fe966d1;0xe086333e2eb];[0x0;0x366cdc248ee9;0xf469b1bf6bf25;0x3590750c773aa;0x91c72b4a5dcac;0x2ff7e7b98477];[0x1;0x5e70040d1828c;0xf6c6fa53d4e72;0x3d4886929fd87;0xf5e859609568;0x12c85eb68419d];[0x1;0x994f7eb99611c;0x7ab5a62c0c2f4;0xcd85aa5651ba;0xb864161a7ed55;0x1c588c80ffea6];[0x0;0x7546687c619c8;0xe6c767ee0ce5f;0xe7525db6a2725;0x3301ef8a40057;0x29f9f38691aa8]]);
 ((V [0xdfa2937e2bc09;0xcabe7d2d98518;0x107cb089c250f;0xda4084bc48a9c;0x10e250652de3] [0x185472387538;0x83bef14a0d88b;0x75bd60c572f8e;0x7611c95710f2c;0x74645876450e]),[[0xd87dde9924947;0xfed055721ea88;0x56a3e0a9d0128;0xc0991770381aa;0x4608aab5eea5];[0x1eb58ba895912;0x3501c23259c02;0xca15c3b19be9c;0x1f973261c5451;0x177e9d680a5e];[0x1;0x8a61c6fdcf000;0x2e8a11a2f006e;0xee1107b6de5a9;0x4024747c42e65;0x26d01fb36488];[0x1;0x39e7531cd5270;0x4fba0c23bdd7a;0x9c60b9e696d0e;0x210de94ddef95;0x16feaa47bf5dd];[0x1;0x122d471597a7f;0xebc9c6c8875b1;0xbf56951b87fec;0x111c9d7de26cd;0x7cda07466002];[0x0;0x134203fde5b8;0x640712850462a;0x7651598cc3edf;0x37817bb41c4a4;0x7f1b310a54f02]]);
 ((V [0xdaf703b4ae17b;0x841e35bb61630;0xc0248e66d04cd;0x4e3b9333330a5;0xaa990883e70] [0x610782c028935;0xf93f093bb1567;0x47efbd8d405bf;0x4147dad854636;0x588372a27c36]),[[0x94412f1e91f46;0x35f9f11e9ce36;0xc336bc5bbf5d1;0x9b249d9a2bbeb;0x34035d800653];[0xb3ddc6dd4c0a6;0x331874d04378d;0x5ea2157a0e315;0xd949ec7bbf5c4;0x4321a1dc2e3b];[0x1;0x429454f59f1df;0x5181641e0e059;0x1dabbaa12fbe6;0xe611b71ad4e1c;0x84091f7af935];[0x1;0x1383a7053360;0x26594ccb379f9;0x1bf5cb0f0f4c3;0xdda900d2ac8c7;0x23432248a3301];[0x1;0xb8083eee25b9c;0x36818b1e30b06;0xc12eccd0d7613;0x42420e9b56901;0x43b9a69688ff];[0x0;0xe23ac9e3e791a;0xd4ae7aed05b70;0x46c63110c7396;0x3adafe7718aac;0x51d26af210327]])]
 [[0xd249e1f06ed0b;0xc259dc17985c1;0x97af9b696017b;0x5666099fadfc1;0x7922882c2313];[0x370211b6d522;0xba6533f0e8045;0xaec40a2fbc1e;0x45d11a18e5e3e;0x721ccbc909f7];[0x1;0x7d2e4b111f697;0xb208716db71e3;0xd5287731723a7;0x158d2bfa07c8;0xe356385c7f35];[0x1;0x3b09536b24812;0xec1234d52c35e;0x235cb8d9c5851;0x59cabf9fa56f3;0x305247fd1c428];[0x0;0x71369f8fe54c9;0x61316a6dd37ad;0x79cbe259b86f;0xf8b8f9003fed6;0x2d2edd032af3];[0x0;0x4117698fbe4b6;0x90e875a47c3dc;0xea4f78dbbbb0f;0x5182622f3ea24;0xe66f2de075281]].
Definition wit_Test_64_13 : colwit ipt wit := mk_colwit (V [0x7f254b4e512d3;0xc4a018e8b6512;0x255c464d30389;0xed831071c935b;0x35f7c13d4b16] [0x5a61b02ecef7b;0x9c18f494c0114;0x8f794661204ad;0x7af912c55c871;0x4e793f3b515a])
 [[0xb01fc8b88e79b;0x4ee12dedfa895;0xec5a0e420b9b2;0xe1b00102115d7;0x644569646f29];[0xadd8d7e94dbcc;0xbdaf3ff660857;0x6ac8f0fe2bd5b;0x63b5929cae3bf;0x37678e6ba55d];[0x1;0x40154e4f4505c;0x8330478ec86f1;0x6c4463e70f426;0xd2a578a52c7e7;0x6d67d88d7520];[0x1;0xbedbbb6636068;0xbe1e0f09fa692;0x4ac236f33db33;0x1e762ab818df0;0x1e5e5e4eeeae3];[0x1;0xa352bb07fd3d7;0x965b78190ba5a;0xf8fadc2413ac2;0x2f7e9784b82be;0x52ff4f6a1d45];[0x0;0x83a1353804b58;0x4429e15f89d7c;0xeaf5ff5357e3b;0xae80b8dda7a21;0xbad5733f22466]]
 [[[0x8ecf69b10f1ff;0x6829dc245153f;0x5f84ea52c6930;0x3ef706e0787b5;0x714a469efc59];[0x1;0xb18ca042dd8ba;0xcc9003798be6;0x45ac78e08ac5f;0xcc15e62656851;0x25b9644cbec3f;0x1];[0x1;0x12a8606b24f2f;0xbbf4eee13f906;0x854f4b030e63f;0xf44522b7250a7;0xc5b1120e59ed];[0x0;0x380f0fd95236;0x584b2334e6fe9;0xfbda3d4c98233;0xcebb309a152f2;0xd70aa27b6c5df]];
 [[0x4b28dc4ad23ee;0x21c1000f48570;0xbae16424ddd05;0xa111ca07050ad;0x1d621a301242];[0x1;0xbf1bfe28296f6;0x13d9ad01df424;0xb2b008bb5cffa;0xb25db813438d3;0xd6efd199c0458;0x1];[0x1;0x9e44b52c8b77c;0x4d1dc63428a05;0x4ed102281c70f;0xb241dbc3f6aee;0x1bc09cd155507];[0x0;0xe6fb93fecdbd4;0xbd8ee606783fb;0x107b2daac420;0x3c1d54442d9ac;0x2cf0caaa02271]];
 [[0x17aabda50f7dc;0xbf155829ec730;0x622f074e49838;0x6a749f7849a50;0x5ac0b4f5254f];[0x1;0xeee22a2d339a0;0x85774012d0520;0x79e527d6728b7;0xe4a6c672d26ad;0x57577204ef077;0x1];[0x1;0x942d931bc5df0;0x22afb509be88e;0x9b8fb0dc15617;0x5d98c989896fc;0xf2194d4e1e9b];[0x0;0x5271484a39788;0x56c1a38ab4adf;0x7be87890dbc8a;0x1440d09bd44b2;0xa91bc8f94b8c4]];
 [[0xab696f0af1418;0xde3e4ce435c9d;0x63440df077b77;0xc77ad8d88550f;0x7d02509f9089];[0x1;0x43b68aee39308;0x81deaad357b9a;0x673dd09f740db;0x4f6fde2daa61d;0x8820d01e0eb0;0x1];[0x1;0x28b3bfeb169c0;0x37535dd08d077;0xd5c08775378d4;0xe1df022d3a5b6;0xb6f7e806fe55];[0x0;0x78041a78e0718;0x4deb670c068e2;0xf21527b1bedc6;0xb111f31df15e6;0xe45eabc5a850f]];
 [[0x978c64320aa9;0x9c0ff535b39de;0xbf66cedd96032;0x2b9f26e6d5b7;0x55c93e65e9b7];[0x1;0xe050f3426b783;0xb4b9688c5b2da;0x1082b65cb7def;0x912c94ab5032e;0x5e808d99c5500;0x1];[0x1;0x3a1f5c07d629f;0x413226223b208;0xa08917b656f49;0x98dcf2c0906ea;0x1af50f4fb8afc];[0x0;0xd6e57f4f5ca9e;0xaaace2a80e0ff;0xa5e5a01a38a62;0x73885db1db1d0;0x9e3c50b5a7215]];
 [[0x5462c60c42f34;0xb879bedb6470d;0x32038d40385b3;0xd044992874590;0x14c59fc4487a];[0x1;0xbd69dc8734998;0xc975c13e9b0d6;0xf0879a521cad6;0x15a0a1f4a706b;0xe91b0809dad95;0x1];[0x1;0x6944e58708870;0x90211ffa13531;0xb27f98855a20a;0xb0f40401b75e6;0x1e45dff73a3e4];[0x0;0xba75021dff89c;0x6b572dcc3c0d3;0x2b29aafe02096;0xf99ae1de8d98e;0x156699642fb67]];
 [[0x4c2f6d5fa3342;0xa601432c35fec;0x40b37bca9cbc1;0x9107451791374;0x761f8fbbccaa];[0x1;0x5a6d66f9083b8;0x48447a4f8818f;0x6b889957db4e3;0x86de88d367048;0x18f2951ac1e17;0x1];[0x1;0x13f7ff581bfbc;0xe95ff00e87e15;0xddffbbccd972d;0x723837902230d;0x15e2287fabdee];[0x0;0x9f2d8f298ddc0;0x4fca559a1fb0a;0xa1f7b2a4562ca;0x3c47be1d8dd7b;0xdff5e86ecdd78]];
 [[0x2e021d71d9dfa;0xefe3f9f84e59b;0xc1f42bf7f80b1;0x60037e0ee08a1;0x57da3dfb58f3];[0x1;0xfe247cc9b2c52;0x7681526d85909;0xa6ed911c6e840;0xdb52c073c00f6;0x61805303ad874;0x1];[0x1;0xb453117d5fa9c;0xff546de92fe24;0xb9a6d42bc7a35;0x5619e6b1ff5ab;0x1d08bdfc71c0f];[0x0;0x1432918755814;0x404648d4218d;0xf748fd36b0b89;0x54cddc1ba6a77;0xa30033158d050]];
 [[0xf0e13fb736877;0x8d79cd60801b3;0xe03c2fc343c0e;0xc1449759197d6;0x6ff1f7d3fa6c];[0x1;0x39d8a73cde434;0x24f039dbabafe;0x9142ed321c801;0xe2bebc5428691;0x2a6bd28faf641;0x1];[0x1;0x6b6bf370612df;0xbfe1f31e4c21c;0xf7872fc9eae08;0x285bc32b3e8d1;0x18cf79d1c9bfe];[0x0;0xd0a98ccb7fbb0;0xb1c8f647d0143;0xfd3a99ab0268e;0x15acd9306ea67;0xd9ba998177136]];
 [[0x474192ffb3398;0x97cd3244f60e3;0xefbb6ebe739dd;0x7f68226a489ff;0x66803ca11705];[0x1;0x3a4b0d28f1738;0x4979ac7ba8df6;0xe7edeff90f315;0x6af9925c1d918;0x43a2c374d9535;0x1];[0x1;0xdf8d5fabec1c0;0x4ea2625e8c56e;0x633f71ff46fe1;0xb30cafb2f1f66;0x1722b18ece244];[0x0;0xa690f7fbfd048;0xb3f4da508a122;0x52c3547b2e877;0x1944702df1a47;0xc5c08b03fbbc8]];
 [[0x41bba6db342a9;0x4a43988eddbe9;0xf67640ef38c1;0xa2fadaa29e57;0x7275fb64013b];[0x1;0xa57b510bf3583;0x69f5f7bceb3bb;0x1d833b8431647;0xf88bef61f48be;0x27bb847a8f344;0x1];[0x1;0x10d715bce729f;0x809f355050e6a;0x1273e60c0cfbf;0x8e26cef32e505;0xfeb223e032f8];[0x0;0x6d1a9bcc0ecf0;0xd8b1deaebbba2;0x539dd14c81cf3;0x393ed790081dd;0xdba63714c01ab]];
 [[0x8a01a9b6d49f9;0xbfc64c8b6f62b;0x880634fd7fa6f;0x8f936640ca150;0xa7152c072b0];[0x1;0x1edbf4f8ab31c;0xc1050553b9c8;0xe63e19a8f730c;0x9f1b11307a0c;0xf80b7ebd88268;0x1];[0x1;0x2cbcc45c30fff;0xeb5f523be77e5;0x6b5d7824eff53;0x7323f66a1452b;0xdd2242fb95b9];[0x0;0x24dbb064db5e6;0x3f1d5b8dd2dce;0xb56960806ad59;0x958eed1061c90;0x2c1de7823a91]];
 [[0xf0c330204601c;0xc902fec696366;0x610f73e8ad28a;0x5dba658678be7;0x3caca09084cd];[0x1;0x81bae6ca89ec4;0xa81715c6e04e3;0xe866ac2d33deb;0x85af1e66d8f64;0x955f272585fba;0x1];[0x1;0x702ddb52f3ff0;0xe719acba7ca89;0x43daf8baf455d;0x2e21365cda39c;0xe896bc07a64f];[0x0;0x5c289a168138c;0xc505d0d1fcb79;0xb7bfaba1785e1;0x5bd0f4c53d77a;0x67077a75dacff]];
 [[0x1789c3e1000e1;0x1a3174bfc6e83;0xdeac1cc4fba14;0x1385ae5d417e8;0x78a2afaccfc5];[0x1;0x9ce89a5e0be03;0x32c34dd2a200f;0xb0f311a7b7c4f;0x7e9d6c77d5fd3;0x114fba7ed8d71;0x1];[0x1;0xd398e0ab6b96f;0xe5fe3c56ac6c1;0x65c4831a91cad;0x3d20fb4ab019c;0x12e574964ddf2];[0x0;0x39e14eb04cb0e;0x77d6a53219101;0x56de9d9c17bf4;0x56af393238f86;0xdb691091b8705]];
 [[0x4b48c10b7cc30;0x38b3fbc91c35d;0xf5f0603a5bf77;0x64be1cdf88276;0x5a88183c4d0e];[0x1;0x3b32495b02a20;0xc901ae511c037;0x32538a8b7e624;0xd2ef96cc8c599;0x572527784f1c9;0x1];[0x1;0xd85c4d5e02700;0xc4bffb6adc8b9;0x27d99c804a72e;0x27d1f2616e51b;0x19376765fddd8];[0x0;0x2036d2e39f630;0x222d0b8f84d28;0xf926b49c5e24f;0xe643ecf939d78;0xa5863432d6ab9]]]
 (V [0xaf08720ea74d7;0x34493c45f8f6b;0xd6c9c39f021f9;0x9d653539ef266;0x3137b5ae9657] [0x6c66c6f8f3c88;0xcd7e07188343a;0x256f2c083d965;0x220ed0c7c23a1;0x1788e7ee28af]) [[0xb30569277795b;0xdebcc810499b3;0x516fcb12b170d;0xb8868d620e9c2;0x4bfd6ca53534];[0x1;0xc6bdc356105d5;0x8ea1ebebf26;0x47f63bbe6deca;0x8376d01b7fd94;0x70fe0c352baac;0x1];[0x1;0x274645e09fd57;0x3bbad6464c513;0xcee8d0be527cb;0x41f859057215;0xdbd149be25d6];[0x0;0x4e8de7bdf30bc;0xb3b141a40ec83;0xe36a8c2cc0326;0x4c96709ad2379;0x8dffff0a3f04b]]
 [((V [0xa51f97db40a3f;0xe824ca4180949;0xbfde886b1fc60;0x83aff5bbe9a0c;0x383af62d292c] [0xfd19a7fbe406d;0x5886980bc7fd5;0xeb075360f853f;0xc24851483cea1;0x343652245c77]),[[0x9dc1442ad4f4e;0x40652019ffdbb;0xd31fcfe8c1958;0x54574b79a388b;0x75c7ff3018e1];[0x63fb60925c54f;0xf5987dc0c5776;0x2365efc4b20c4;0x3dc523e03cca6;0x4821fc305f71];[0x1;0xe2dda9d92299f;0x2436f559dcf69;0x9e5f539f29382;0x846c501aa6235;0x7d573907efdd];[0x1;0xee7805c7e5720;0x678f5820df646;0x5324e606b0c7c;0xb7c911a8c130b;0x2857c159a85d3];[0x1;0x83fdfeeb3e4fc;0x53522e914f80f;0xd0d5c15733815;0x7cee711564301;0xc8f3ec1347ec];[0x0;0x44ae13952bc5e;0xbd0b476ae341d;0xffe1c6344a9cf;0xe8aae30f38247;0xe90d5831116ad]]);
 ((V [0xffb917efef9d1;0x6b1221c4d7482;0x6d9ae4c365cd0;0x10cd058aa8c61;0x672169f0af8] [0x8e1e293496f7;0x3fc20b94f98b1;0xe3ea8948ea601;0xaefd4a63c6fdb;0xd38a827f0b3]),[[0x9ec21527bb1d1;0x86f55692da803;0x73f30268883d5;0x852d84c37d95a;0x34cab0254cc];[0x3fbaabd6eae17;0x77b2f8c7e0940;0x90020113ec2bf;0xf4e57f69aa49;0x401ebb373166];[0x1;0xbc0bf8a27d7af;0x9bb76b059cb68;0x9c671ae7a64d7;0x34d946ba9275e;0x6789c3ddec62];[0x1;0xb0ab67da350e6;0x2db692222e6cc;0xf8b842264782b;0x12b584c7a7f32;0x27e074b6cde87];[0x1;0x5690ea861bc8f;0xf79264e98bbef;0x48d39d34d36b0;0xaca04756a84bf;0xedba4002a76b];[0x1;0x1ccf02535ace1;0x82c1ad919353c;0x53c5556c2a18d;0xd49f0c9a18975;0x14b36246581b]]);
 ((V [0x95999b1b6ec33;0x49c5374d8af2c;0x7153bec21aa2c;0xe7c76b1996d22;0x378ceb1efbe1] [0x2ca56c47c4de8;0x29bdcad800a12;0x7015dc6a81fc2;0xbcaa3ccaeef15;0xc16ce41e00c]),[[0x308c9a7db674a;0x8314efd972da6;0xc3cfeb4e0a63c;0x5bdb6f3c5526e;0x3dd6406066a];[0x63ce73b1486b5;0x36de0f0a81cab;0x839df70af213e;0x98fa041f542d;0x29ad7a95fc4a];[0x1;0xa6efc45912c8f;0x2e4d5e0eb688d;0x96f915ccaf3a1;0xd64b93cc3113e;0x5307dd5cc041];[0x1;0x6c67da343e174;0x9c4d10a04b014;0xd1d05c16ba10f;0x2c46287b96703;0x1f9447b539b27];[0x1;0x60048c47d6d5c;0x4a70d23b20f59;0x19867722b271b;0x84e0a799150b2;0x88c4511e285f];[0x0;0x8897bd8bc9df6;0xd7cc2e1f27112;0x1d784fd0ceb5d;0x979207e5bf4b1;0x4b6f684607ed]]);
 ((V [0xdd5dde8d1fb32;0x54417b89d888e;0x12c06d7cd5cc5;0x49f70d12d4fbc;0x5ec0521c6795] [0xe02c89edadc27;0xdc73fc43acc03;0xeddf0f5fe661a;0xb0ae9734df00;0x3abfb73a5c5e]),[[0xbf3d8753786f;0xdb0daacb533f4;0xe9683b5ba2f64;0xe0bc920744a7d;0x66381e50bee5];[0x1ab8658839c7a;0x41211b95d5cb5;0x9fa071f0c6b89;0x181a3a4dfeb9;0x4a74e6ae6975];[0x1;0x7caf97d713887;0x757b579486e30;0xe1791a7bf18;0x154762670fcff;0x7cce182a2ec9];[0x1;0xdae40b54ad9d0;0xe85fff216f2ad;0x1fabdc5dc69bd;0xdd766253aa80d;0x2ab6e75af10c5];[0x1;0x66bccac2a510f;0x633eca9c17ed9;0xf0aadb660ce0;0xbf4f1b6b49471;0x14a12c7c9809e];[0x0;0x1b2a202f73ee;0x955dff265b088;0x4ba1eb670e112;0xe0e01fb4cce50;0xc8040b7985b5f]])]
 [[0xf035152312fff;0xc0ec98971319d;0x7140c37f313ea;0x99b0e385edd2e;0x70217454528e];[0x313cb23a6a8e1;0x2d6c9d24fc97a;0x3462230e42667;0x3be689e61e7ea;0xf14cc3fb440];[0x0;0x9c019bb771504;0xd1003501570c0;0x820dbf96b696;0xf7b898767a514;0x27fa0110d985];[0x1;0xf558abc756fae;0x685c72bed0470;0x44ff69a7fb335;0x665cbfd886f38;0xf38e9334ba42];[0x1;0x4f5c3fb0b8b2f;0x3f9db19fabdb5;0x2a1d44b202662;0x113e70713c5d0;0x13f36cdf382e1];[0x0;0xd1a8b00cfad73;0x6bb2946858c7e;0x99dba233c5a53;0xd6a9bf6a081c6;0xd648deb06abbd]].
Definition wit_Test_64_14 : colwit ipt wit := mk_colwit (V [0xc3262ba99a89a;0x64888f0b94d86;0x8f85e52dd2a6b;0xf1d302c1229a7;0x6e12a3fdf68e] [0xed09b7a594bb4;0x8c82001c32d1a;0xee4532f1d2aac;0x4ed2f13c2fee0;0x35884816f660])
 [[0x5f0514f7276b7;0xfa03edd19007a;0xc46f56c7155f1;0x7f19293a2c798;0x52e30858dab6];[0xf5ebfd12f1894;0xe0ea10903e85f;0x87f352038de25;0xc061e9d291c9;0x202e25714d01];[0x1;0xd011612a8fc9c;0x632c94cb3e738;0xbb7f126198693;0x9dfaa382da409;0x3d798e81d9a0];[0x1;0xd98e58f903886;0x26727632e1377;0xa4528b02a587a;0x50b888a0b1d44;0x13257ad8dc67a];[0x1;0x88a5b14112b5f;0x93e97518ac16a;0xc3dcb36a1e162;0x229a1be7790ab;0xf35906422da3];[0x0;0x5436922fd6d8b;0xca392d933e6a0;0x86ce2c7a08da8;0x10d5f0adc945f;0x92cf0b5324349]]
 [[[0x404c300ed33d6;0x1f2d12b7805f0;0xa4bb38042f120;0x8b4e4a0148877;0x3fb899f3524c];[0x1;0xf328af7d65732;0xb539fedd0ef40;0xdda5d2679ba01;0xec78fecda49c8;0x82a9c7a3ec683;0x1];[0x1;0x49c634c579fdc;0xfef74d794f570;0x9041647c11c96;0xe969570d27ca4;0xf4e1536a4889];[0x0;0x3e92624b85e2;0xed50c367882dc;0xc387e3bdac9ab;0xcb628b47dfab9;0x6e9965d23b202]];
 [[0x75a34670f3dea;0x8d2ad9f095eff;0x87c000facb494;0x6cf4253e1d032;0x4504f782ab02];[0x1;0x866cfd42e9bda;0xb9ae3d9afcb6d;0xa4b3f1718fc84;0xac8d933899343;0x7d910f1267b64;0x1];[0x1;0xe9c489440ccdc;0x2a54244b9efe0;0xfcca4ce96377;0xa0b71f654c902;0x19fafe0f6704e];[0x0;0xc5ed71332645a;0x6f56a30e094d3;0x6837c1c888bbc;0xa103405a36612;0x7604f8180aba5]];
 [[0xaf11c5050516d;0x26eb1b725ead0;0x60397d8548550;0xdbe4bb25c4bb9;0x5e774222ee78];[0x1;0x308d47689d4cd;0x54319c0895e9b;0x7f7b47b5b7d56;0x5da7156f7f4ac;0x461447e3c9b81;0x1];[0x1;0xfa31a41e0e47;0x41fa5277c33a5;0x59a9b71704d06;0xc36c1f1bbfaa2;0x193ae73b33227];[0x0;0x58b37de63e0fd;0x7e1d80b3b5de5;0x7def61fdac505;0xbfbe6d63296dd;0xa95bca9fe90b6]];
 [[0x5af74534917e1;0x3097f1196bc62;0x9bd446f6051f6;0x82db5235412d1;0x134ec6bea8a9];[0x1;0x3d342d186a311;0x12d1ec62dbb09;0x4d705bbce0216;0xbf95ffa9a6eb3;0xde1f9b74f62b7;0x1];[0x1;0xc5b33b5e9eb6f;0xa19c2c59e04c3;0xb035d1391d5fc;0xc6b8d930277d9;0x17ed49b1a52fe];[0x0;0x9202f4484cd6c;0x5dd2052165858;0x53724f0ab9181;0xa6c6cf885c84d;0x79112a4d9669]];
 [[0x7ce557fcac9c9;0xf3747aa79aaa2;0x327528e62d78e;0xee6b2da5204b5;0x7fe1370c1025];[0x1;0x7f8e3e03b3c16;0x4abdc0927950;0xdc98ccc5145c0;0x2ae349aa82667;0xfc15fab22b27c];[0x1;0x4972fe0ddd25f;0x1fd646e1f0c55;0x964bdcae708d7;0xc647926ceb3c9;0x14757092c053f];[0x0;0x136258ec39fe7;0x159e17e22e072;0xb93236b546e49;0x548db6de5da2;0xeecfffefb8a03]];
 [[0x745d371b669ef;0xa36d7caeecfc4;0x671568b093770;0xf7e559787783b;0xeb19072e13c];[0x1;0x700fe14001828;0xa32ae9a985eda;0xe42fb06e33809;0x4f77d39ec5ff9;0xee6462ff35ddb;0x1];[0x1;0x437d3bfa2140f;0x67c7ba5194147;0x3f009b3e6d816;0x8d52ec67fdcde;0x23bf3be7fc317];[0x0;0x877766fc0cb39;0x87bef047c369c;0xf50baaf40e271;0x9aba54a557844;0x4d1826f280f3]];
 [[0x3bdf2eaf4201b;0x66d46bc7223cd;0xd6f05a81d9d2f;0x46a596e117cec;0x28f3045546c2];[0x1;0x75b94a306296;0xbb5fe0d93a74e;0x9cabc4ecc13f3;0x4f0410babdcba;0xb3161eaa0b310;0x1];[0x1;0x9797e8f0338d7;0xb9eafe9b5bd63;0xd13157665e6ca;0x32cef9ae0f9c3;0x2a3bdc950ad60];[0x0;0x8dd018dc7c485;0xe23a840d41bf4;0xdd469f69b2353;0x4ff605fd51755;0x36b77ea85bef6]];
 [[0x1e374fca36862;0x860be8ba48d02;0x76e7f376c3b9e;0x6db1e7c932430;0x7ef3cde7e088];[0x1;0x17a70e530d048;0x4d4bb099aa113;0xa8ee659ffe665;0xa7b9ced48610e;0x260e04b03518;0x1];[0x1;0xc3f5769726f3c;0x3ca8081b9040e;0x10a8eeac76319;0x7be13225ac033;0x1f2ec29ee3ebc];[0x0;0xf652f6714819e;0x3d9ac202e7809;0xb612cea0581db;0xd163720ac1727;0xeefc1ac9e4b30]];
 [[0x82784959b4bc6;0x7094619fe7365;0x29cc6ed4f2691;0x7e588794042e;0x69d055f89145];[0x1;0x535a9dac009a4;0xf48d25b334e9;0x82bf4d8106cf2;0xf09cdf2bb020;0x31e1670129808;0x1];[0x1;0x5672921cce59c;0x64feb70a8f8d9;0x14caeb3f0dfde;0x7334e0fddc268;0x15caca1e8595b];[0x0;0x53b66fe78ce34;0x92ab6a7e183f;0x1bb7dbb613511;0x17805947fc240;0xd2b691044b1d2]];
 [[0xbb2525e3a4f67;0x72c8ff70895bb;0xd022420555905;0x423a623e4ccb;0x1f361f8c3ed7];[0x1;0x7985edba5d99f;0xe6b65f751e1a4;0x870f6824e433c;0xa413642aa9ec9;0xd32559e4a0f68;0x1];[0x1;0x75a30c59d64bf;0x4b66753c27444;0xff3d87dd53899;0x26f906509a402;0x1c64f25d904db];[0x0;0x7877fd0bd98bd;0xc3d0c749b7e0d;0x922cded7e1241;0x8e9427f268e50;0x3043c786b7b62]];
 [[0x9f51bb5c4bcee;0xc80e7622b9af6;0xe7008e50fef87;0xdf52f8d0e0f7e;0x36d84a8c2ece];[0x1;0x4cc2b1f059a32;0x5686d4d212e37;0xac61b328d5e2d;0xef5a70b04556a;0x985e87660ff20;0x1];[0x1;0xc70ce00dc7b7c;0x8e25afde7fbd7;0xa56507a243167;0x5c3d28efad204;0x1c5f4c0989840];[0x0;0x3cc109bb6d8ee;0x9f63ee386f4b0;0x8bfd8d10640a9;0xd3206ac52493b;0x633d9190ae714]];
 [[0xb3601c7734c31;0xfc8ad18227c6f;0xa6114938e9f82;0x176bbe278bdda;0xc3e1945f238];[0x1;0x10bc7b11e69df;0x260f0fabb1561;0x2b5a0c9300458;0xa0e227e37da81;0xf9fb157eedbc7;0x1];[0x1;0x3fdae38d96bcf;0xd00959f6a648c;0x4a77c8383e12a;0xec308e7df8460;0x1d1372c4356ee];[0x0;0x552d335f210f;0xfd22c250a25da;0x299dc1d7301fa;0xb0a25da75d159;0xe13276efab7e]];
 [[0x5f2d74ae411d2;0xa785f31b9b92b;0x9fffa9cc50d40;0xaba4820ed0b72;0x5ff7a715e8d1];[0x1;0x41af7ab55f8b2;0x217bc8465734a;0x18fc4edd2e426;0x1626d1aa30ee5;0x486a102693157;0x1];[0x1;0x718309e24e87c;0x900923d42e56a;0xdefd18a1ddc38;0x97adf9e099f6a;0x248a33606c9fe];[0x0;0x3398f3310e41c;0x39fa6ab96341c;0xa102f22fd8cd9;0x147769472632f;0xadd7012834ebf]];
 [[0x57bdaa3380f20;0xee2faa9f6d328;0xa1341e0460659;0xaf1443b132fdc;0x1b7945924752];[0x1;0xc038a18c13280;0x200ba16309494;0x186176b3426a1;0x1089ba97a43f6;0xcee17309a9138;0x1];[0x1;0xf7d8204ebfc00;0xfccc46a610f1c;0xbe5f12442f728;0x5f756899c95f;0x2abc711dfefca];[0x0;0x864c3919a90a0;0x27fa7acf0bb94;0x7034cd7104f27;0xddc9dc8bb7209;0x22da41077b045]];
 [[0x23903bb2a31b6;0xe5030cc7f11c5;0x89e0371e1c78b;0xa88e6bfc4e801;0x1a295ad626d8];[0x1;0x73d5a807b6f0;0x43e3886e25556;0x661474a475b82;0x2bbd56b1fa1e0;0xda3060664550c;0x1];[0x1;0xce642d725215c;0xd4ab3a7ed8296;0x103fb11005d1b;0xf8c52e8c074de;0x20a5d6738ce5a];[0x0;0xa6cb0dec2ae6c;0xab5ba9d8ec984;0x7486051d84dd8;0x40ca11b598317;0x27e8c55e2e069]]]
 (V [0x5b93b6c343768;0x4ebe71b462db3;0x7adaa1cbb0938;0x2e857ed4ec357;0x6dc5800b3c22] [0xcc778c76689f5;0x20fc9d96990cd;0x402bcb9038cd4;0x24a6791fd8f39;0x2eddc8ddc1da]) [[0xb1213d72f56f0;0x2ab9d59ecb412;0xeae957344b7fe;0x743f1d33e5a9d;0x48d454bb6927];[0x1;0x38ad8b586af50;0xb3ada84bd8d58;0x9417e0c40be6e;0x6b08a8b2edd98;0x7fdc695a73172;0x1];[0x1;0x26df0280b0f00;0xc70d80d6e7501;0x955c01b86a317;0xacd105fcec2f6;0x126b3f3877c87];[0x0;0x4730e8c9d1350;0xa0116e3ce761a;0xa2468aaa4123b;0x541ccda38e5e7;0x856d5758b72c4]]
 [((V [0x32ffcd69cbca4;0x82ce8077be6ce;0xdc65f3e32c6a4;0x82f80d3e84de9;0x269dc2ba4a2a] [0x3490a84c5cb4f;0xa0bccf43f3fa3;0x341d20d422ad;0x4a4c0c835875b;0x5e9d55678b7a]),[[0xb34d5e8ab5bac;0x8a634efd78c56;0x76e3229e80fcc;0x9499dd1f89f2b;0x375b32e616e2];[0xfce448f9801fc;0xcd55fb190a7c6;0x3dc50189505e9;0xa49220a9c837c;0x5f9cff17b9b8];[0x1;0x4e7700dc3d1c0;0x3868a168cc2c8;0xf917269fe7570;0x7f70e33b7563c;0x61166f5fae5b];[0x1;0x19996d5f5b348;0xffdde32235ad9;0xa339869334f20;0x7c536c3fd94a8;0x31524995069b3];[0x1;0x84c827489f70;0x301941058ccd3;0x28a4c7b12edfd;0x1eab4a8d8550c;0x1ec60e4e955cd];[0x0;0xa8919bb0af7dc;0x27037b93801bc;0xf8a8a1a95c1bf;0x510263071bce9;0x6269119032625]]);
 ((V [0x90bdcf940d812;0xab03859d14dcb;0x82dae0d051ddd;0xca8f8e114fa29;0x34422e2b67ef] [0xafc1aa9072684;0xc177dbef070e0;0x49e6e6953b6ff;0x790e59a849b6f;0x3fc5c7891b90]),[[0x49daa6d855c47;0x6cc7d1747731;0x7b229d47cd7c9;0x9c5a8f7c0051a;0x722ccdf53a68];[0x1e4d1dbef32e;0xa59c4d28a724a;0xf95a5ae26fe01;0x8b4c7a104a08b;0x6d5cd50d9b26];[0x1;0x7bace155219f0;0xb111d0a41c5f0;0x6d2ccaef7fd62;0x289bd03d39361;0xcf133c0bc108];[0x1;0x79899ecd54f8e;0x99980803cf99d;0x149981fc30317;0xb404ab7a555c0;0x2e762818bfd11];[0x1;0xf44d62a1dd07f;0xc82253f9f35fc;0xb6e6bbc4325d;0xcda9bb556b76a;0x9d2388b44481];[0x0;0xe8085378f4005;0xeee4ba5dbe64d;0x18856d2f5fcf5;0x3a42a05330ed9;0xd6ed51c9214fe]]);
 ((V [0x9d6c5a201d92f;0x55d4b9c97086c;0x9d5a3e0528da9;0x23c6ae5a696e7;0x6d7f59761a79] [0x1f0100e567b39;0x7984ca4ca96d2;0xaf90da43fb7f;0x7a9c10b25fede;0x796a8a53d32e]),[[0x6f0d31cf30f78;0x2f04cdcba6664;0x786da1df4105e;0x37fbce6a117c6;0x7956cae4cb41];[0x240f4bb3e9c7f;0xa7ce1e003a302;0xcaaed779657c6;0xa123b65fb858e;0x2b2fde2875df];[0x1;0xdf3164356477c;0xa3eef98364e7d;0xfdd519447805c;0xfcfd622dec5cf;0x4109d495f9e1];[0x1;0x7a69d62d6040;0x335394846b9e6;0x2baf2c6a7f293;0xaed3dd2e331d0;0x18a36cbc331fb];[0x1;0x32106ed0103c0;0x6749288e93255;0x97a947c38722e;0x49d51490f674d;0x1390119275f5d];[0x0;0xefa3d5ed8ea60;0xda01fa4925646;0x332cb0363786e;0x59f29e06de871;0xdfb8ce103cac9]]);
 ((V [0xfc9a7adac9b85;0xcdbf4dbdb1625;0xe9d73e1622162;0x1535e876a0107;0x4b72854306e] [0x66de95f95ff2a;0xa19422996832e;0x69116ec5506a6;0x2ec2d1aa70ff6;0x3f8e9d356182]),[[0x959f4e8bc1db0;0x98faea8878557;0xabb50c98b474e;0xb051781a78ebd;0xbf738229879];[0xe85f4ff8914ae;0x3b5bf63f11a95;0x8880bafe314c9;0x88ef0ea9bb73a;0x7253fad493b6];[0x1;0xb38bd9eeb928f;0x27a0fb4b58cbb;0xc9039b4d1689b;0x8ec3738b95f85;0x86fc92983d73];[0x1;0x86e3650bc59a0;0x682dfc7e94d1a;0x18bfbe58c3887;0x77614fb06053c;0x397448f885791];[0x1;0xae5e20c425700;0x11a61527da252;0xab44e65825ea7;0xacfdeb86816e;0x1be4d5b601a69];[0x0;0xfe4e8cb479090;0x4fb1f34245c2;0x90659e05f064e;0x37acf0ea0d2d0;0x22b781dedf5a]])]
 [[0xdd7b294669b8f;0xabe4747666ebd;0x3173a902afb27;0x538e88b694ba1;0x4dc2db326379];[0xabb632dbd8f18;0x939f272da69b;0x8aec6f389e758;0x733378f0f4d6a;0x5e35e768997];[0x1;0xc9b8e0f57497;0x60ff1dae96dec;0x408fcbe7de2ee;0xb4aa7d2555da7;0xb9a445272b8];[0x1;0x9ab735ea42354;0xa944c9b240b6c;0x890d857b283cb;0xed2cc14dd0191;0xd61b1fa86a45];[0x0;0xbfee2242fd4b1;0x64cbe056541ca;0x6e25b6062624c;0xfd79d826c37ce;0x7ff8f83c012];[0x0;0x1ef846c650114;0x29c7b59dde5fa;0x1b550acbf35f2;0x1997e204a819c;0x89c4d89324b39]].
Definition wit_Test_64_15 : colwit ipt wit := mk_colwit (V [0x97e418d3b65e7;0x55e331211e333;0x9367eb29b5c9b;0xe02973fe2e18e;0x5859f37bbc18] [0xd6c38cba1accd;0x4000f5d7665d7;0x3c846045e6019;0x36328dee0a502;0x75d4a1dbb297])
 [[0x29f31062dc000;0x501281e64d715;0x3d541d898f019;0xe952554184d19;0x7794537b292f];[0xe4949f1e1b685;0x9bf724de8c042;0xac642c65f7014;0x9eb05a0e46cc2;0xbedeb6f67f8];[0x1;0x996e812da3cdc;0x9c11acfff78dc;0x80356e4d3e37d;0x82c5fd57ad721;0x170c284088c2];[0x1;0x47a379ba80000;0x222516e7d78da;0xbfc5ab052e07e;0xd799cb5c0f836;0x6f6c1cfb429b];[0x1;0xcf5f0000000;0xc9633bcb905fa;0xdcee2a410b635;0x982fdc3d55a48;0x69c03ee94058];[0x0;0xe2d9603f30000;0xfc7df374a7112;0x29056cf896928;0xe61d3bab957f2;0xd4e1088d5e2be]]
 [[[0x1bdbd9c6177bd;0x4abf12154ca18;0x4ca45d4dffcf8;0xc5be7835423c2;0x6f07fad44290];[0x1;0x7163cdab69c8a;0x22458236253bc;0x1bcacbdfb682f;0x28841462f60c6;0x270753f434d02;0x1];[0x1;0x4bfa104760b27;0x560f09a8b8916;0x3b8dd2fbaf0d9;0x6026c510c998c;0x1541ae41884fd];[0x0;0x2b57f2cf82b44;0xdbd28eec45c95;0x6054dab3a5f6d;0x9b31c2f36cc82;0xcae3d7b41f16c]];
 [[0x6a979fe0ad933;0x13e7731de2b97;0x835d9917efc10;0x584dd712079b2;0x27d9803f9327];[0x1;0x3168fb1b1b06d;0xb6061fc0dc780;0x3ada5112481ef;0xd5e5a463d72e3;0xc76ec5f32e874;0x1];[0x1;0xaddd6905e6a87;0xe16a5dffb5ad5;0xbdef10ca04999;0xc0068d94ea901;0x277c9750ac3f4];[0x0;0xfa5f8a6b2253;0x2a3bfc5a6d842;0x94459824fab79;0x71641c4683f7a;0x420b6e18e0156]];
 [[0xbab498f70dd70;0x731d083c92dac;0x29ce4c9cdaa7c;0x9773c1f04a8bc;0x6289ceaa45b6];[0x1;0x367e5cfa53890;0x51c66b8659e51;0x79da73c3014e;0x99e8f4a40e7f2;0x4a316f033ec80;0x1];[0x1;0x3cd2259cb9f00;0x9fe911a17c9fe;0x51831797c1b59;0x97adb38d9fbf7;0x1ff1fe8f0af4e];[0x0;0xbabc6a4ef4510;0xfdae0fa08b796;0x5f4cfb8cd45ac;0x7182ed5a94dc1;0xb2544f73814c3]];
 [[0x1ed7232f50694;0x9c82aca5ec2f5;0x782cf66b1e93d;0xb5d47079822a6;0x3e2151314b36];[0x1;0x3b925ceb313b4;0x3350ac0f9b97f;0x817bdf3ae0b3e;0x3efa92c195223;0x8f314ad357dc0;0x1];[0x1;0xcca31e308f570;0x23cc39a841753;0x17673376e1e7a;0xc4fb5e0231512;0x21d5b35ef30a9];[0x0;0xe67ed4bc92390;0xf7b3d5dcde673;0xc68fa346eb6dd;0xbbb0295374a67;0x68abd2347afb5]];
 [[0xed1b3d60583d3;0xfa42883ee4ed4;0x72ba59fba39e3;0x26765b3536eeb;0x11ab6907fb5f];[0x1;0x364de3d111902;0x59fd69eb5dbf9;0xad146bad0ad4;0x1e1e1a9cfb8f6;0xf2e8321968810;0x1];[0x1;0x973d6a5d7ec7;0x60bfc661a2381;0xe2a14087b7eb6;0x82dc5788cf23d;0x265995bf427c0];[0x0;0x971dd7ab629de;0xfccea1bc8cc6e;0xe9d802435185a;0xfdcead1db3e2f;0x1a4d996dfd66f]];
 [[0xd36b78c49871f;0x1c62be06eaa54;0x76250eb6aa4d0;0x1d54d0c7d0dd9;0x516f4e6efd7e];[0x1;0x678202f9386b3;0x95b3ad3c79a19;0xdf53e00885068;0x840dc472614f0;0x753748a836cee;0x1];[0x1;0xa4858eff4c96f;0xbb35f8e8f4574;0xd85fe6a4c1f16;0xd39d4d8870b62;0x204e974a2f62c];[0x0;0xab614be69c66b;0xaed3e375e4bb0;0x1ec8682228b2c;0x7c5e3283909bc;0xa5e0a07e1e3fe]];
 [[0x46256e02de9ad;0xf4f70c31b76ba;0xe64043d7af6d7;0x444f3dc1c0274;0x8241f312b26];[0x1;0xac03d634e59a5;0xd795fd0bbd1e;0xa5d36499790a3;0x61baea0f78691;0xd296bff62cc3;0x2];[0x1;0x19dbe4b378fc7;0xf7f01cad8ec38;0x54b22a54057fe;0x381db92b4c80d;0x182d767b5bbf1];[0x0;0x24ea014c525e6;0xebcc0d07b1516;0x61325f4ef4d4;0x3520eb41d3da9;0xb99567441873]];
 [[0xfd5d6b9ce619;0xba4a308972ae;0xdf55c9cb5bb24;0x9b845a24402f5;0x64056d0240ad];[0x1;0xadc99989dd25c;0xe6135b9363eb4;0xa27347bba1781;0xdb8cee7a1e186;0x488c7aaa8b305;0x1];[0x1;0xdef07b67bc1bf;0x83727a349a2d;0xd9ecb39df569b;0x16eded340fb09;0x15b32d1e67197];[0x0;0x660c449a7e5f9;0xfa5baeb5d9377;0x6892e041cf60f;0xf53d75255982;0xbd22dcfe8f3e1]];
 [[0x6c5be72d5bddd;0x476b8b00935f8;0xa7c83f36a247e;0xbd19fb323cb59;0x49b7c294027c];[0x1;0xff749235e2e8c;0xbb6a1767b4fa;0x417182b7c705e;0xb65cc3c445082;0x7e8bb6712b1d7;0x1];[0x1;0xe240557f5d7e7;0x7251a70db3ea6;0x46d3c68011f0d;0xd33b883e10301;0x1831159bc8ec6];[0x0;0xac0e8b92a3aaf;0xcbb95da0e2efb;0xbfa68b5b4f4e4;0x82bcbbb568db7;0x8445ccb79ed3d]];
 [[0x6bc302c656e54;0xec65581fcb24e;0xabfc336150a6d;0x25da91c267ed5;0x22d5ac405f10];[0x1;0x223021e7dbf28;0x2fb01ed904b29;0x2911dc85d3808;0x182db4aff20e2;0xc7e1329bf2bca;0x1];[0x1;0x8c2bd0cdb0f70;0xac90bcc944499;0xe3e1ce5ac2687;0xd0b0176c67bb1;0x19239f1d6d280];[0x0;0x666f8244d3ca4;0x4ae0b6d8a7331;0xdcc553350952e;0xd952a6b4cbc97;0x3016670cab7a0]];
 [[0x2a80a6eb28f96;0xa5bbd00b384a9;0x8c421ada70f8b;0x97abd1c2e9d8a;0x1dd39f97a51a];[0x1;0xd9148601214d4;0xf6c5bb9363710;0xc26cfdb79ac2d;0x9f505772691af;0xd898403de418d;0x1];[0x1;0xe7b1a16369adc;0x6d9f0b97c364f;0xf4c1442cac92;0x765f2116ee837;0x2201b2a1e4792];[0x0;0xf324daeee5f22;0x75e472a005b4e;0x58b0cbad8dcc1;0xd4c2812f4ed35;0x2ba99e893de1a]];
 [[0x440c81f5d0694;0xba40280a73166;0xfe5e6e467c510;0x44564e74eb70b;0x44aa5a96ec7b];[0x1;0xa3941ca6374f0;0xfafa2fc901d80;0xc510f0e762a67;0xf26f6bb6d5fd3;0x8828b43ac098a;0x1];[0x1;0xb7c50f6c8f570;0xfabc5829d6bfc;0x469b6ef0e26dd;0x99633073ebed4;0x229edc81cb6ed];[0x0;0xa4f9cfdc6179c;0xb8a40f75c047a;0x84c7b3aa19800;0xb33080d2ffe0b;0x7762de8564b79]];
 [[0x850a52e962675;0x1bcf7acc39754;0x21b87c6f93737;0xdde9a680e16e8;0x70f7da55cd4b];[0x1;0x36a255a2de43a;0x2d3d43c4519da;0xea42c6db9bb8d;0xd72f8ad32bce2;0x2a98a4236399d;0x1];[0x1;0x5b60751ca837;0x2ab90df0903ea;0xacff52eebec07;0x7f0100a263925;0x1a7a3e467c293];[0x0;0x9a9267289416e;0x6d9f585fd2093;0x14331f935ab53;0x8081541ae202b;0xd7b2556954cdb]];
 [[0x69fd939b8ce01;0x3d97c8667ea98;0xbf568d67253e9;0x3c7a27128f984;0x3ed501b9ac61];[0x1;0x10583bb20c3d;0x333f25f9d9f6f;0xc56238660899a;0xf6d1772123a51;0x949943a7974d6;0x1];[0x1;0x30a2ffe46cf2f;0xc45f081870800;0xe3a12ad26a6ad;0x9f80c13c02062;0x19e0c8b20eba0];[0x0;0x169c501b017bc;0xe61529bb3e42f;0xc91a4396479da;0xc9808ebc58b2b;0x720de84b30bd9]];
 [[0x8a11081b20a7a;0xaaec773239f9d;0x582590d4e0830;0x8464b393c3f65;0xae8868065f0];[0x1;0x6fa8b64bd34;0x1b08070355c92;0xf01f2367b8d43;0x1adda9ad2f9c9;0xb1cb52563f2;0x2];[0x1;0x8644823e6b09c;0x8a043a25632ad;0xcf91d96a77af0;0xbbdce330c68a3;0x187d5ac212ed3];[0x0;0x8c1746ddb0432;0xb5228cd919d4;0x5a9b280c84c4a;0x5ee13835209de;0xab67aab39947]]]
 (V [0x9a59012f1e61f;0xa6d229d3ac3ce;0xbf8c799a6431c;0x8a5107671f4ff;0x7cf983a7a520] [0x8f639ed773370;0xb67852e9c1afe;0x81ecf41983121;0xa3730688e53b9;0x624e2e3abfa9]) [[0x81a8ff6ad476c;0x332a13765ed5e;0x5900ef5e3f3ac;0x53f17bc4d55b3;0x76e16742481];[0x1;0xfab413481b944;0xf39906daecd9a;0x39eb4c06fc62d;0x1b3393ca36a8a;0xab07b41a2e04;0x2];[0x1;0x1053301de2570;0xc237ac2f79213;0xabcbd0c021a3c;0x84e01314cde31;0x1532681fc7f3d];[0x1;0xb9b9bb1f7e100;0x2ed3d83acf5a1;0x37ba0b3c7a212;0x568e770941464;0x1d3c9ce7653d]]
 [((V [0x75625ec70d85e;0x8375461779681;0x9bd9c11558bd8;0xc604fe9006cc1;0x108da0ca34a9] [0xa40686025489;0xf4e03702ba97d;0x1a620af271282;0x2fb713abea051;0x4bba48635dbd]),[[0xfaae51fb058c0;0xd36de039111e8;0xe89a6a8df5c36;0xf0a58aab199f5;0x1eb3f525b8f9];[0xef110a112bddc;0x2b1fb2fdd0995;0xa824ea3e587fe;0xee46239b0a21a;0x1795008a9907];[0x0;0xdc64a30ed891;0x901542b1531d0;0x9ba15cc6a54f;0xa39b2b6f39128;0x4adb54625d87];[0x1;0xde47c54755800;0xd9acd4994b803;0xc0f9943173696;0xb42d5990aee6a;0x15e54f25d85bb];[0x1;0xd2ff6d2467000;0x4ba756810b19f;0x52777eeca484f;0xbe38a9b32dd6a;0x20da3f847d41c];[0x0;0xdf99b30783580;0xe452a92dfbce1;0x4038ad040ec22;0xb434fc7020700;0x2b3236452398b]]);
 ((V [0xdad5c41cf3298;0xdcb5dc477d49a;0x4640cbaeeb219;0xd6acbdddcc3b9;0xe591cd2111c] [0x1d33cdfb37b96;0x67db3467a8d3b;0xfe7415526f923;0xb977bfb563c0a;0x6d1ba29a692b]),[[0xa4c757abb227a;0xdefc0122af3ec;0x7729bf96a0035;0xe9a48304606aa;0x67dc018c4018];[0x6e62f41e1540a;0x15609a6758955;0x863d8520dd332;0x46a5c203113c7;0x5984075d1475];[0x1;0x26dc27bbde23c;0x7187e3297d659;0x2bf31c16b48e8;0x52ab44d0fd394;0xb0e409d29449];[0x1;0x504d8de42212c;0xe51037b72f4ac;0x8a33bb8864b80;0x4b3c8594ce990;0x29e340d80ddd9];[0x1;0xe389498c5d09c;0xbc785673fdb58;0x55ea6568eb20f;0x8d18d35fb1080;0xaa33029eb97];[0x0;0x6a36bc2e8f8d6;0x3b39e4c776922;0x46792312b6009;0xc634daa2a3cb9;0xbf37a6994080f]]);
 ((V [0x7803abe1d27a4;0xf9c4111da8518;0x9342eebdc77f8;0xd376476281b97;0x5ddad87409ef] [0x18ec840d7a5f2;0x303a9a8bb73a4;0x419b94901cf90;0xbfc607d514b;0x6372e2479977]),[[0x4294e63823d52;0xed6b442c1b2eb;0x8fa180a6a9fdf;0xe0cd8c1068f76;0x3ad59ecdb672];[0xab560ee951ba8;0x753c0e7d5a95;0x5e2b9c279207f;0x71ff4c29824a;0x2e6618959b88];[0x1;0x8b2bfc2bf1c0;0x43ea268d2111;0x14881e97e2074;0xb2f2d0eef9c70;0x5b3074d328b4];[0x1;0x5f60cac2ae468;0xab0483a54208b;0x927f447d7d880;0xc093fd2105d7;0x1b21759719efe];[0x1;0xb0cbc1601ea7c;0x51eab9e914abb;0xe78aaf51b8da0;0x8a8a0c3494140;0xda0f27c2a152];[0x0;0xecf8bf105ae3a;0x1b27697575bb;0xc4fc29608432;0x99e6f7d2d5cb8;0x5cfe0f534f48b]]);
 ((V [0xd3d529e6656a8;0x9854eb385818f;0xe9ab73d1814c2;0x50d0795519301;0x6fa1e6a11ea1] [0x4039dc91c9077;0x2b40f781bdbe1;0x2bc7335eabe14;0xd6db76aed0b8;0x318bb35cc448]),[[0xdd677e2a8588a;0x3e1698d2ac8f0;0x5b629c1297b0;0x89670f3bf40c0;0x1d075b0ec1f0];[0x51ae23b96e46e;0x3bc55f31ca593;0xa7f1a51b493f1;0x367c5a7deaa7b;0x7166eeefc1d0];[0x1;0xa369354d481f0;0xaf34aec1fb8b3;0xba79eb9fda74d;0xa0d1d3996e08;0x9dfc652c2be6];[0x1;0x79c30ca7f5a98;0x5d84eacc41a87;0xa327d13aa81c7;0xcfdd4e990925;0x37b4e1d071147];[0x1;0xa847c3943945c;0xa45158e44b43b;0xc8567fbe18b9e;0xbd72c031a98ec;0x25019d9637ebc];[0x0;0xaf2b914fff122;0xf9a2e27e380d7;0xf9309683016b1;0x1c7e53dbaecde;0x28fed72dfb693]])]
 [[0x44aa044bd306a;0xa73737d323e52;0x722660da66fb6;0x598b74f0ec9c8;0x7e7ff8e02baf];[0x8ff2a57bc0fc;0x380e2cde1f4a6;0x25b0b04253a5a;0x1ebcc8f38c16d;0x56e47df6d2c0];[0x1;0x32168bae1dc0;0x8a4abaf459aa4;0xda56ee54cd0f8;0x969de3755cc08;0x4c6d63266783];[0x1;0x6a621efd3bbb4;0xfce5d0f76b80b;0x48b356dcb9aac;0x85e8ddc3424d9;0x2a76cd8c78030];[0x1;0x8802798bb9adc;0xa39fe510be2da;0xaaebf61d98110;0xef9ac28ad6ffe;0x1b3e28221cf4b];[0x0;0xf0bdd4ce29924;0xca815fe3a3ad3;0x75432852c8c7a;0x40e66c2f21671;0xf8ca9cd85fb0b]].
Definition wit_Test_64_16 : colwit ipt wit := mk_colwit (V [0x99efac6d66b0c;0xaba689a0f91dc;0xa071e237fd2cd;0x2f9d8496489e3;0x2434a6111852] [0x5cb34a5e56fd1;0x6573d39dff806;0x923432f22c689;0xad6a3d44f1d26;0x274217a0fa04])
 [[0xb1bee1ccf8110;0xbd8ccf7384227;0xe849d05321405;0x4c2f6b4627072;0x6ef8effc3ea4];[0xf3aa79401d709;0x4abb1bd229173;0x3994d5bc8d51c;0x9cb037e0356ff;0x5b6814feac99];[0x1;0xde87d68d8314f;0x201fce496c56e;0x7a6c48784093e;0x20fe4a4726308;0x9d43a25cd00a];[0x1;0xc6b12384816e0;0xe9246a6f8285a;0x3ab7175eb4b2b;0xc2948ea0a7928;0x2a3a6a10e33d3];[0x1;0xdd3c44fd00f00;0x74ce43eaead46;0x2a78ad13d1d0e;0xe191168e01e0c;0xccf23e95c89e];[0x0;0x8edf12164b540;0x8449552a75161;0xa3ab80a60d83f;0x2a40010a44f8c;0xd7d3686e96f76]]
 [[[0x8050e22bc4261;0xdd8f31b8c9ac8;0xfcaf8e8d978aa;0x2f3da8676f502;0x68c79cc733f6];[0x1;0x1ee6bcf1a1c92;0x54d3ebfdb9261;0xc1914ba47826e;0x5db79cf4c1975;0x34968e62f23a3;0x1];[0x1;0xf439d8a4ce66f;0xd0c90d20e6121;0xc1e8d3d51c216;0x3d84e7b439c15;0x1219a28acb087];[0x0;0x6c62ba5b8ddc3;0x2dc4458f81ebb;0x6b11256440380;0x74ce789268b85;0xc87bb20742d40]];
 [[0x4e5d91e4534be;0xc4a10a1ea4469;0x4457dea5fc30c;0xcdc8258dc7c7a;0x14e76d3140ee];[0x1;0xb4f99cecdd60;0xc110e443d9237;0x1a2a1c03853ef;0x96675551c9d82;0xe5f18e6f9c1f2;0x1];[0x1;0x352664f355fbc;0x69641b3c92d32;0xb34210d245864;0x8d38b8f6c46de;0x11f0958439b4e];[0x0;0x1ad853bedac98;0x9b07f997cacce;0x6acf80b0a2ac;0x4f0fc8d6ac204;0x20408d44c6718]];
 [[0x775aa0a1c8f71;0xd6721c70daddc;0x915429c9da694;0x1dd6989674dba;0x406aa0b6799b];[0x1;0xc005fd08997ed;0xe9ea52f2739fa;0xeb6748c20f4a0;0x6652cb9684f75;0x8823dd8fc6751;0x1];[0x1;0xe9186aff3554f;0x144be1471496d;0x1c4238f529d31;0x8b82c5c39fb37;0xf88e89ee8af7];[0x0;0xb489609c7c8e6;0xadc00ca3e4874;0xf2d6b54ab671b;0xe2076efdd924;0x76c4022001a40]];
 [[0x2ae4039d83e90;0x9f213b29b23cf;0xbe8604df1f841;0x1c756eab432ae;0x40d48d73b1c1];[0x1;0x9890d1d067d80;0x2df993f954747;0xe59d370d71861;0xf2cd569ab3d14;0x8c60607ebe686;0x1];[0x1;0x5ab4b07741f00;0x92aae6e1e29dc;0xbd7736fab335d;0x1eef3caff8c0f;0xdd7e791b58d7];[0x0;0xcf31d878c1010;0xabffc3b748100;0x286c054d20b3d;0xea9d7bb17063;0x7e3029194e164]];
 [[0x7ae6ba0c33d3d;0x7740f0d27cfd4;0x79d1b1cefd261;0xc4a18070a4822;0x5bae802b9016];[0x1;0x82ebe5ce40160;0xff00e1acd669c;0x4bbc2f5c17579;0x776ba8977ffe;0x5072b862aff54;0x1];[0x1;0x761e15b3bfc27;0xf9800ae8a0c0d;0xcee90814bf846;0xa58e3e0d7dfb0;0xc65fa36186c];[0x0;0x6a5ddea3dfeff;0x6a3a2f1c17990;0xf0815a6cc061b;0x1993385bfeb07;0xb0d21ebf9c784]];
 [[0xc41a478ed64af;0x6f30ce741e1c6;0x6cda8ef04d4c9;0xe87350de25fa5;0x47822bb4a6ed];[0x1;0x815b30153f30a;0xce99ae056e890;0x50cf5f6e117eb;0x8c2100aaba446;0x79be294a2ff02;0x1];[0x1;0x9649d4954c98f;0xbf9e8577bf7b9;0x7e9e79c54f0ff;0xb7e83d7481f1c;0xcfcaee981a4c];[0x0;0x660cf287f4e9b;0xc3494ebc460a4;0x8e9f6f6207b2;0xcce228e4f54c7;0x876157c62ed0d]];
 [[0x82f65ced43af5;0x2e1ad82c31992;0xcf0801e77d7f6;0x6a0b7cb8e56b5;0x73f6694523a6];[0x1;0x981523b20adca;0xe3fb0a4018527;0x207c34f453581;0xf8f76092dbcfd;0x25e303af615a1;0x1];[0x1;0xdf36b90d21b37;0xaed5c9e5d732c;0xf6d86ae4a62;0xb7dd7c3cf0a83;0xf171169fc144];[0x0;0x15db6b0cc470f;0x6ea6ddd41be86;0xc8db93276abd3;0x6ff84e912254e;0xe60e3161da18c]];
 [[0xec1854969f46b;0x317701e7e3f85;0xe8c472a89ab21;0xbb802eb68558d;0x631d54c6b373];[0x1;0xdab05ac1ed5b0;0x7e358c8e5f34c;0xbfc267064aebb;0x1df3d936a7116;0x40bf3cfb8b07d;0x1];[0x1;0x7870fe212d0f7;0x8c4f46528c793;0xdacd029955a2;0x88ec9e4d211a6;0x9848b885f2d8];[0x0;0x2a5819cf47c5;0x9a69818610209;0x1d6c340ccc002;0x62681d0e6bdcf;0xb5ed5d88858e2]];
 [[0x1a0ba3b836239;0xa76aa2d682f29;0x8506972f1b242;0xafca8247c1fb8;0x68c1bbf64cb4];[0x1;0xb01115ee8f412;0xd2983f42cf2dc;0x66b6b53148718;0xd32928f447f6e;0x2d38610e7d704;0x1];[0x1;0x7630f24842b7f;0xffada54b1bd7f;0x65c3306e4d97;0xfe236113214d4;0xe5369f5e2953];[0x0;0x2f794b5584b0b;0x64965f84e3cae;0xeb22541b7b574;0xd212086fc4b9e;0xb6a3e8a1afc4f]];
 [[0xef3353354950d;0xef8214b611f07;0xa7f562e7bef02;0x4d05620667b7d;0x4cbf988019ea];[0x1;0x9ca913fbd05e0;0x212ba6482e32d;0x786d6b49f2b1f;0xd3e3572949b89;0x69eb95a528739;0x1];[0x1;0xa047be47bc007;0x1753b336dc1f;0xa4272e76b85f2;0xb6072e98f35a4;0x1128be3fc6582];[0x0;0x68e54728b540d;0xa88dc4d66492b;0x8db384accae18;0x5c917988be172;0x893b907082c54]];
 [[0x78a79982ec9ee;0x9d25b65362123;0xbfc8b96d5b928;0x1d04d6b81825d;0x75bfe5cd4e59];[0x1;0xbb3c61a6b8300;0xbd1b5852756c6;0x297a76664d54;0x4de91c75ea365;0x191f26ef1bb81;0x1];[0x1;0x4134ea7878f7c;0x97b5e187395e4;0xe379b73528114;0xc28dd79f9a285;0x357d83377f98];[0x0;0xcfccb7fd0ed62;0x32b99b99b30ad;0xa98852aca9d41;0xff2aca6e47e2a;0xea34d8fc4a776]];
 [[0x22202f6749a6c;0x50b40fe36bbea;0xb45931006092f;0x35875e61f9f2c;0x1f18b5c8f5b5];[0x1;0x1d54b0de7ac38;0x418fbb59ff02b;0x4c18f8579c82f;0x67917971d8eed;0xd375b01f16d22;0x1];[0x1;0xea98949469d70;0x674c0cdcd4adc;0x635cf8d1d0508;0xba8345e2286e9;0xc1d09e2371f0];[0x0;0x9313e1bf80dd0;0x8874de457eda9;0x90ff38074fbe;0xfc4373d805cbd;0x316a1c9b73c58]];
 [[0xffd7174964af1;0x3fc7a1992515c;0x660f0d3039529;0x4f9873afd7ffd;0x2f9ce32f7b56];[0x1;0xefa4610692f9f;0x6e3a0efa2d716;0x12735754aca93;0x8b9f8931dcdf3;0xa5d4148f19127;0x1];[0x1;0xa1ec36c00de4f;0x26ad8295431af;0x5cae320b17c3;0xabedd5f8a6a7b;0x12a2c6b972ffc];[0x0;0x761153a70c6c3;0x76c1272fb1000;0x97309ad11a8ad;0xeb223e6f70a12;0x477df6e7b1c47]];
 [[0x3f0ff0b1905aa;0x8db6857da5e08;0x1d12d9f4fc5c1;0x70e59a2f86b22;0x667436ba29c];[0x1;0xda76eb4cc1a82;0xa4b0cf93d5605;0x596bbe09f87fe;0x9a374141e8e07;0xfacd8947c6700;0x1];[0x1;0x18960b87e21dc;0xd653b1ce7488a;0x899a56bc1547d;0x4e23dff0d5871;0x1a1fa596fbcb8];[0x1;0x44e9db57d1f26;0x4275ac8a415a9;0xd1fc1a6648e79;0xe4d804b946866;0x1bcf055bcac7]];
 [[0x41eae146e1120;0x24929703a539d;0xa0b6a1b5a7c0f;0x39173c1312e6d;0x44072b450f57];[0x1;0x9c2ad48ed69a0;0xd929033f23b1c;0xa5de8e16d5b2e;0x83d8567ffc51e;0x88eaf141e6fba;0x1];[0x1;0x900ad54c37c00;0xc3b700724bca0;0xb5cf7b3a778ff;0xa7bffea5f532f;0x16a99922bcde2];[0x0;0x56630bdec52c0;0xcf608f0b64514;0x813eb5a679b94;0xf1f241e311ab9;0x862f7e3be433a]]]
 (V [0xbdee5eb693c63;0xa12ec0c43f47c;0x8bce3c4b6ef94;0xd60ffb91dae4c;0xa515879ef37] [0x22f2e65677f8f;0x475a8cb08f3c;0x13b0b994c81da;0x7664170107668;0x7e551c5a7748]) [[0xa2cfdb0d8061b;0xe355adb192923;0x28a54e0b82ff3;0xbc2f564ceb934;0x7bf86d7b410e];[0x1;0xb8aa34786507f;0x8868d31bfaaff;0x7fe1e5fcd483f;0x28cb2423fd1a4;0x144a7d367b447;0x1];[0x1;0x3dddc333174d7;0xd2d2d010ef195;0xf9725906fbf56;0x7c677bee0eff2;0x8aae7f32ead6];[0x0;0xa0a8087377b59;0x2deb4eb21d878;0xe50afe91b3600;0x320b8597d6a7c;0xed6e1af850973]]
 [((V [0x49f2bceb6e9bf;0x446238f740408;0xd94446d65ebf7;0x6ec6b4ef5aff7;0x648c424a5aaf] [0xf018d7ddf09b2;0x179ac13f61c6e;0x53f8fa9f7f82;0xa701603080c75;0x68001f1810d1]),[[0xd572e2d4ef21f;0x572dd025831d2;0x444d1b6c04a7;0x6884a1f7f2d75;0xa1893f5def2];[0xfb05318ebafb6;0x8d062e68f5693;0x7170f22167c60;0xda10240a69ce6;0x22f8f0fdc926];[0x1;0x5dca9931f6267;0xcbd1b95d9e33f;0xd57cd18da55d0;0x1aee119258f0c;0x451cf8764d72];[0x1;0x2d88c39ae13be;0x19da337c361dc;0xa1655ba1312fd;0xffec9c9f290eb;0x1bde7d5891f52];[0x1;0x712a02eebbf6f;0xa30b451b336c8;0x12e911d6a5010;0x2633a8bf41444;0xf1920aa5e02c];[0x1;0x4a09d38518d65;0xc463e0f1e464b;0x6dad345bf1677;0x32fae7ccecf4b;0x869d51d06ce0]]);
 ((V [0x925125cfcd011;0xe4ddfdec8a744;0x54d471fe5f284;0x31e7a14930f71;0x4ab659cf59b8] [0x9881ab86c6c11;0xe44435ab36e5c;0x1b200f37c6adf;0xd795ce2a91036;0x3e4e919cd844]),[[0xf3df760e91cb9;0xa796a03cf0c04;0x20fb38ec6b29e;0x3cfe6ec1e1567;0xf8e86ed02e2];[0xd85387918e987;0x194c6fed1f758;0xcf91fad72ff37;0xeec8e4dfb5518;0x44f0d8194dfb];[0x1;0x855bb0a1ec6af;0xa4bb3a13ad9f6;0x6991d47e98f60;0x8802f708fc4c1;0x3ae5eeed494a];[0x1;0x7792afed7157c;0x7de6f928a4231;0xebe2e3fe4a98b;0xf78d227cf6cdf;0x2845d6dc7cc53];[0x1;0x8b0badb7c4e7f;0x9499a2c053ba3;0xda1bed624c150;0xbdc0c24567105;0x225b9b674a568];[0x0;0x3ccd3adce1cf7;0x497217372d511;0xc357e6f96d839;0x256a388eef41b;0xb7e5d8eba595]]);
 ((V [0xe49f19f5d574f;0x6680d92a01838;0x70f6be1d80c24;0xe3f2d6e1d8d26;0x5c38c771342d] [0xd928ac66f171b;0x8735dab385cf8;0x1bae497f05e8c;0x2d7ee7e7125bf;0x3f4d0fa3204]),[[0x44fd4697d8634;0xf5414bc00efbe;0xdd79c449afaf1;0x2cff3afd5a75f;0x1ab09e307c9d];[0x95c2284c128f7;0xb0750ddbc1ac6;0xe4735c5c03d57;0x43e985bf07345;0x73c1c43d1400];[0x1;0x54c616fc6200f;0xe0fe615dbbf0a;0x2c80f9aa6290e;0xc1a8ba4411bab;0xbbe7acdac398];[0x1;0x9c9a7942ed098;0xbb7f7a5eb1e9b;0x5c266ef97649a;0x385bac889f1f1;0x39c8ebc352519];[0x1;0xd1330031ab070;0x2503a756b8b66;0x62a1e6d28aa16;0x3efecec62ecbc;0x1ddba422853c6];[0x0;0xf25861784449c;0x7fa2a45ff17a5;0x40d378f71bcda;0xb80be0904de06;0x2e896f7d2bb7b]]);
 ((V [0x7ef7028dd81e6;0x11be330616d56;0x34b051b34219a;0x4ce784f14946e;0x6100eb232931] [0x1de926d351c2f;0x5ba0e762e8b04;0x622c6c12ac3c7;0xf8ac534f8f6c7;0x5eb44b862c0e]),[[0x5e99637a071d3;0x2e2c56f3f2491;0x5d6d19f478ce7;0x3754f1ce907e3;0x3bf81d65488e];[0x4c1e4446308f0;0xb982b0cc9f620;0xefbc3bc45475f;0x9932b73bf959b;0x3131b0309772];[0x1;0x38fbddb9272cf;0xdba0f99a373db;0x17e6d1d3043ae;0x3033fe045ed48;0x1ff1a87eba13];[0x1;0x7e1eb648641de;0xbb96d917bb47d;0x5949722fe5f72;0x8dd9676746bd8;0x223751a01eb8a];[0x1;0x648191d8ceac7;0x1cccd03c5e3c;0x3fbb751a9941;0xb27c92b41c518;0x216cc57ffd4fd];[0x0;0x4e2991f48d7ae;0x3dd546d2506c1;0x2c39dcb4e89bc;0x2c85997a96dd0;0x6f36c0bbb4dbc]])]
 [[0x63980e030907f;0x294f273f74c4c;0xcf94e9b21c801;0x1d70154039d07;0x6db336deca35];[0x309dfa47691bd;0x3587f018434fc;0xb7c62115049f3;0xddce02ff26261;0x3c8540b891c1];[0x1;0x36c4bfcccf01c;0x292ac3a3242cb;0x8d5c6bb35ec1e;0xde2385e6c638b;0x2f871d0e2921];[0x1;0x505d402a49dbe;0xe9279798ef75d;0xe1ee0198ba6;0xa39c09037f645;0x1c8cb423ddfe7];[0x1;0xca86c0f16dc2f;0x85c3eb2696bd4;0x7788985db32d4;0x1f7a66dfaef16;0x14ded06b1618c];[0x0;0xa1e3f387a3253;0x7b84974dcc905;0xa6fa9e2de2f6a;0x6f3ea725c6213;0xce57da53289d5]].
Definition wit_Test_64_17 : colwit ipt wit := mk_colwit (V [0x9f5ffc3764df4;0xcbe8b68d172bd;0x578a9a14839b9;0xf61f207d7bb21;0x3aea41e5fdb6] [0x413650f099d93;0xff3e3cb532b81;0x89a1e53f9cee1;0xccb0dd26a6b19;0x537c204082cb])
 [[0xe7bc304ae4852;0x927a6b98e85f7;0xf35c7a3ab19ce;0x81aee867ae83b;0x16628519287f];[0x4385b91628eaa;0xa2fcf2ab84ae7;0x98f7eb87dd0a3;0x9873caedff6b4;0x412adfba5a0c];[0x1;0xd0edba6a9521c;0xe06a42a3959c8;0xde84daf6e7aad;0xfbfdbffff71d5;0x7f38a0860adc];[0x1;0xcf95a9f50f88;0x1b51797135b60;0x5784e0f1fbfa2;0x70b25d20dc4c4;0x264dcf3e0dc64];[0x1;0x2bea800ba1e7c;0xceb9e3f1d45bb;0x58fb1dd636ddc;0xa132bfbcac7da;0xc1c5773e742e];[0x0;0xb8acac84b257e;0x3305711ddb7f9;0x5ee45181b58fb;0x9ae86813cea95;0x171b0bd82dde8]]
 [[[0xa5799cd49db06;0xd9c819aa7ee40;0xbfd17e96d0b0b;0x7cdd42edbfd49;0x3bc42be9cfb];[0x1;0xaa7e6f573115e;0xdbea66db4892;0x94366219f3c;0xad05e16b6f32;0x675650e7ae73;0x2];[0x1;0x8dff88acb8e9c;0x28bfd8334c99;0x792654723d996;0xe111129ea38e2;0x1265af359f28a];[0x1;0x5f15c901fbb48;0xe236dc8564b3e;0x78c2a9e9a4aac;0x7a6ae547c3cd0;0xfd6398abbcef]];
 [[0xf53352a6f153b;0x5198b78b45e32;0x5784b292b38b5;0x1d99abf870f29;0x10666a084f5a];[0x1;0x34a7edcd73726;0xc5818bbf11b71;0xd47794f2529e3;0xea48c7f67ec2;0xed6f5cb27bc5f;0x1];[0x1;0x201fbcd3c2417;0xfe3b33821ed32;0xd5cd39c250858;0x5299c282f28c6;0x1ec0b61e03d8c];[0x0;0x693930278a1b1;0x114d457dd8394;0xd05f0f452be6c;0x66e9701a0886b;0x13e30ef85f712]];
 [[0x458217bf8376;0xdef408ce8ebdc;0x56eea7d266c46;0xd96b0044415b6;0x48fb33077e7b];[0x1;0x20448536e5420;0x1269ce236aa86;0x98f9c8d6f00d4;0xb95872a575804;0x83ce78542e63c;0x1];[0x1;0x11d8fb0a3c45c;0x6ebfc97ce3ccc;0xd3db54c9886d7;0x3e956e4679f0f;0x181f9f0393aab];[0x0;0xc6f7ea02e9bf2;0x3c13eaa74c9fe;0xebdf8f88b9537;0xbe9c3e0d7cba5;0x971e6e1fe4ea5]];
 [[0x81c0156d38369;0x7a2a7cad4743a;0x900088673f4e0;0x49daf59e57317;0x5696dee87f47];[0x1;0xe7f987de49566;0x37bbff8dc4a20;0x96fdd3bbc5ddb;0x26cdf97f6aae;0x66b0157f952e6;0x1];[0x1;0x9f010bb6c6d1f;0xbe91b64bec85b;0xd475852230b18;0x3bd9c2f658440;0xf8dd097c30ec];[0x0;0x10f34e33e52a8;0xfebe6c3780021;0x5efb67276cd35;0xc4cf90fa8e3e1;0xa27900d5fdc05]];
 [[0xd9955e149c673;0x115f21a349b60;0xb04459754d7e9;0x42d25a2fdf607;0x3e40b24b066d];[0x1;0xbbe5716dc901d;0xaa48e4add6d31;0xd0564e20e1e8c;0x7afe513b209ca;0x8b2357f243185;0x1];[0x1;0xdbacefac4bb07;0x3ef07e9bc12b5;0x878825ca55a6a;0x3e9424ac602e3;0x1341a03a90228];[0x0;0x7a53cc514c7c5;0x5e56541056217;0xa4350d830321b;0x81eb3926e2cf1;0x65348d38c4918]];
 [[0xdf7a7459fec;0x2268582f9335d;0x112deaedb8408;0x4abfce96be0a8;0x59ae4423bc5];[0x1;0x73835cce377cc;0x5874ef1206f77;0xd2d7b15bbe355;0x33e984f199aa8;0x24ee4c3f5364;0x2];[0x1;0xb4104c6247970;0xe62f92659fdc7;0xd1bbfd5b53186;0xdd77c30a1ab3d;0x161a10f84462e];[0x1;0x2e8e0104c3c54;0x89fc2f798151d;0x948ca1a40814e;0x483b5fa5b04c7;0x22c3033d5ad7]];
 [[0xb7db185a9d109;0xfb28fa9a54db2;0x1d4bd7bee6832;0x7bf3b15359e3f;0x307d602703af];[0x1;0x9ee1d94401f81;0xa917d1df56bfa;0x6eda7079c373a;0x610190988f9ba;0xb57c571c2cd68;0x1];[0x1;0x327e8125e57df;0x8c31133150d30;0x9e29de55c1f86;0x3ef3a05fe0bff;0x16b7dff557242];[0x0;0xd6a938988611a;0xbbaf366ed29e7;0x6a57409ab7a7b;0xf49bf9c8705ac;0x598840ec2308c]];
 [[0xff0c51578ed7f;0x623f76639e0b5;0x14572de8d1ebf;0x25424faac828f;0x5b21550b3175];[0x1;0x52d89b0ad37f0;0x162203acc2013;0x68196fc7fae93;0x8b53d726b591c;0x5553236f2eecf;0x1];[0x1;0x2326915a0b62f;0xe5b923e1fa0e5;0x2ba03196a4061;0x5c5e3eecc2745;0x1a1de26be5808];[0x0;0x8fc21bcc562c4;0xc8625b862351;0xe63c1bab58b83;0x48ad73fbfa7f;0xa30403ec81b94]];
 [[0x4f89fefdfa278;0x5ba94af622a55;0x125727516ec9d;0x6499b604be93c;0x6e446aaf32d4];[0x1;0x9b0666d1bbcd8;0xdab8b47dcefad;0xe9d58bd760142;0x39492609814e0;0x2d06c9eb9635d;0x1];[0x1;0xa6e4f42eb33c0;0x4f9daae870e93;0xb3d41c190ed2f;0x10894cf34e82f;0x15219383a75ec];[0x0;0x717b40879a3f0;0x576256c48a968;0xddb30e3e9cc61;0x91dcae7898a25;0xd05ec2a15adfd]];
 [[0x7901f8efd1d86;0x5786d4e0b0eeb;0xa556bf76511d8;0x159e81e045375;0x5a514e99470d];[0x1;0x2a1fd58907fb8;0xc7c6852657353;0x3cc27fa3cdd97;0x6348d0f9dc082;0x55337f3c4c0e4;0x1];[0x1;0x2adc400f2d09c;0xc40326f2000dd;0xb9f50446e3632;0xb0adb1388531c;0x16043fe6efec4];[0x0;0xf3d11edc5b83e;0x195fe1f2c6592;0x12868f8cb56a5;0xb2e6c0b33b29a;0xa9ab43c878231]];
 [[0xdf81576603aea;0xaa3101d992529;0x863f6717348a8;0xc4a67e1de8e63;0x7e629f3d4414];[0x1;0xa311ab09f8040;0xa20e9c8d5517a;0x6a6cd966221c7;0x2a709f6b34925;0x1572d64f60f19;0x1];[0x1;0x1c649c08c08dc;0xac93e0f97a6ee;0x2467528f0350b;0x25dddf8cb2b1c;0x1a2fbcbe49b1f];[0x0;0x6eb700b1c723c;0x9fe091a0fc6b0;0xbb4487acad778;0x7be86840138d5;0xf6d23cb29da10]];
 [[0xa19c238587b4b;0x2ce3fb07ec850;0xfd4c2ab344211;0xe3f03ae17aa3c;0x32357f46d405];[0x1;0xccb91c29d5929;0xa8d2a5ea45485;0x7fdd4e9b3e2;0xb0833a4817a6d;0xa9339d1f698be;0x1];[0x1;0x668e4fe6029b7;0xe8133eec5f09b;0x17183053ed87;0xae0b7c00104d8;0x1d078969c7035];[0x0;0xd1e8de6197c57;0xfa983fc8870f4;0x7ce455daa2c31;0x2a4b5b42ed5eb;0x5acd31ac123b5]];
 [[0x1ba83eea2b08f;0xb1a4fe986309c;0x491ce4d6ecf62;0xe243cffcf724e;0xc320cbcd0e9];[0x1;0x4a2020afbdf99;0x53a925ea73f74;0xeccc3f6e7004e;0x95029a0110bd6;0xfed5d47ad9170;0x1];[0x1;0xfe4f1ea91d54f;0x8e732540c00a4;0x727a264d96a7d;0xe317bbc9e0ec7;0x18ce8960c57ac];[0x0;0x8d07bb7a687d9;0xcbfd565b54688;0xe3b8e8235e6c4;0x6d237182d6e0b;0x15d3198520cbe]];
 [[0x398a3acda23f;0x32602128d49c;0x93e33f4641e4;0x7a3e8a03be3d4;0x18745fe10873];[0x1;0x6e533602feddf;0xd1c4745262359;0xaafbc13a50021;0xa017351944af4;0xe72550396f1b8;0x1];[0x1;0xbdd740b0607af;0x607ee57c52bd5;0xb6f656e538d5b;0x9d04f55793b27;0x1626aaf43f017];[0x0;0x33d9a1c23d644;0xf4832496ed1e4;0x65a6a84d7b223;0x8a195e3ecf1b4;0x2bd23d42333ab]];
 [[0xa868a9e1f79e5;0x9504c96958b26;0x3344a95853500;0x8ded10beceabf;0x7bd5874ec431];[0x1;0xe1334461a0e1e;0xb8ba1d370f7a1;0xb71210c0a7840;0x794b2dc96b444;0x155917716e1ca;0x1];[0x1;0x62259e47674d7;0x43763456e59c7;0xa7b18f166aea3;0xda632c6654e0c;0xd028cc69253f];[0x0;0xb4790c5239c5;0xb6008953fb213;0xefcd3efd236b;0x5799dc2ff31b8;0xf0c25b5c82f61]]]
 (V [0xcf725ad9b6301;0xbce800a57ef6;0xf07064d2d84fb;0x7f423b414ef73;0x44899976c19d] [0x9b86c3a9344d4;0xcaab4c4217089;0x148589ed0aad6;0x8ee46dc469d24;0x1a235ff9f84c]) [[0x33a2d0d5a65ef;0x917344f9d10b8;0x45a7ab6b74ca8;0x8e5de136812cc;0x4f84cfb2fd5e];[0x1;0x6584de292d300;0x85dacb0bcdad1;0xf00cc0c6fffc5;0x3b418fc62d8a8;0x6f5ad4a307c73;0x1];[0x1;0x1bd91b41b0c0f;0x8d7190fa36fe7;0x720bd9b95f5fb;0xa838e6134113a;0xd993b022b58c];[0x0;0xd86c5b561b925;0x2ed82824ccc8c;0x4cab4507a63f7;0x894f52b17d0d;0x9603cbc2f8261]]
 [((V [0xe3742c58eb9c6;0x194f2288bdd11;0x1c7d4341c43f8;0xadb6a8988f66f;0x5f210c8d4973] [0x995e0f15adef0;0xe9eded6d0f597;0x2c0d92961239e;0x7331f2db3a331;0x231de4f8f2a8]),[[0x594fe67416f14;0x54a08568126d3;0x9e9f648b9961b;0x1d50234de1fd7;0x4f6d0d4b9285];[0x39ddce19a37e8;0x8278d08d9534a;0x57a29d1bda790;0x2f215cacfc659;0x1beb5532cc89];[0x1;0xe83b6e4f2852f;0x1bb755ea1e40a;0x5d9692cdda614;0x3cdd4d230fc3a;0x1323e36c3126];[0x1;0xe71e4aaba7ce0;0x79540b84292cd;0x9623ba347ea46;0x6835dcbfa1de0;0x18713cb0aba33];[0x1;0xf623bb1d1a170;0xf8ab5b5363525;0x68575c5fb19e8;0xf730007b40ae2;0x19f1f85a3aa69];[0x0;0x94f9cd4a45df0;0x29363b3c231e3;0xe385cbf267a21;0xc65eca88c6528;0x9b20c0c150f5a]]);
 ((V [0x2c7c2afaa8829;0x48fd5ff049943;0x9ea7d1ce5f67f;0xa0eff564b4332;0x523c468ce019] [0x8201d916af428;0x5194a82cd8d53;0x36e7ee7d42820;0x79c6ae8b19799;0x48f292687c6e]),[[0x441c49e81ea06;0xeb89279402f4b;0x58003a278f410;0x521176dcf91c8;0x5cf19dc7ece1];[0x14060f21cc0ca;0x81db5c3c563ef;0x510caa37f12c5;0x8d431e5578c6b;0x3ab05f401f49];[0x1;0xd8fe749663d9c;0xe74c5d50ee3ce;0x6e3550648fb29;0x6b4bdaa63d4f3;0x2eada7560b76];[0x1;0x8f6f4c6e428c0;0x24c04b8717c64;0xee00cd690d495;0xdfda85e810c33;0x22d22af359cd4];[0x1;0xbf31cdf0d9a9c;0xd3edebf5d7589;0x121e973c78bae;0x68eb683bf6a84;0x1dd7fa46a9a28];[0x0;0x4d7f7c3ae6bd4;0xdfeefa93ba2a6;0x615e3c15ee3e8;0xa45f4c70a7752;0xb2c612cf481c1]]);
 ((V [0xa2a8acec43a04;0xb652ae103addb;0xccefb206d10b3;0x9f6e17fccd7dc;0xf5ac8f9806] [0xff38892ad64f;0xf3f81ae735a8a;0x9da1ada1f9d34;0x96ec8484227c8;0x7330c603f9a4]),[[0x8e2bc2f0044f2;0xcf44760860f2a;0xf5a3049ee9450;0x243f9b1e02a19;0xa756934bfac];[0x523e5d40384f0;0x3682c903bf3aa;0xde9a6f508e3bf;0x313982880a449;0x5c0b3309074];[0x0;0xe3339793e0061;0xe3a89fdb658a3;0x6308d59dd72f4;0x3bef16bf3a79b;0x2953f065a92d];[0x1;0x375e09ce23260;0x12c94429d5ba4;0x8803a4d28584a;0xe726cd0dd315c;0x1169878e55081];[0x1;0xa1420447d5bfc;0xaca3c6acc6236;0x414de29741de8;0xd60c8aadb6a7a;0x14a01af2fc799];[0x1;0x8d3a0d09ef6b4;0x3e02c0e34b58e;0xdbae0fd8022fb;0x1c05e5d7b44d4;0x18800fae431b]]);
 ((V [0x110035774a77e;0x9f2c8bd2392d2;0xdf3ea0e6f733b;0x4282f451ff74b;0x2a5f5fe6cde0] [0x48aa451913744;0xc8c54b6aaaaa3;0x8c797b3c5ffe4;0x8ad7b777bbbd4;0x1381280912f0]),[[0xb34115abc0833;0x5f00343b7a25f;0x43d1fafc34ac;0xe563d11b9d3f4;0x6371810f0b0b];[0xa01018a89911;0xed3bb4fe92a6e;0xe47306db3b4c8;0xd457dff2c1a27;0xede20b678ba];[0x1;0x24347773e2f0;0x57849d9d41140;0x3fe92f8d62c7e;0x25ad3e9dda102;0x1dba69e57321];[0x1;0xc86b67854d166;0x6adf4f7cf5304;0x7a7b29c84642d;0x6297c2655cc05;0xa6390791acc1];[0x1;0x2a942e3279087;0x461b85b5e2006;0x870e1e051daec;0xc6de4ac847785;0xb5379c25614];[0x0;0xe44c569d67e5;0xabf83897c08b0;0xb208d6b07d3e;0x98dd6d8567d5b;0xba4114d0f2806]])]
 [[0xd4af3fb97119d;0xb4ca8c5cc144d;0xaeb9db4c813e3;0xb4b39e3174a7e;0x5d757bd366c3];[0x30887a13b0d88;0x7015eb4d7bc74;0x1d903cc6a3325;0xcb05d84c185cc;0x2ea32a86863d];[0x1;0xdbda2026b6abc;0x80719acc661a6;0x4635340887470;0x97bcfa1470219;0x4f3f770cf2ec];[0x1;0xf727f9adeea18;0xda340f53d0669;0x3ee2090713738;0xadec9d125c94a;0x1fb5783201f43];[0x1;0x8566af27bf667;0x707614c0c649c;0x9bdd108e3f081;0x628441e96eb48;0x904f158c4658];[0x0;0x9cde7171a6c6e;0x3586b03fe46e9;0x143a543cf0a02;0x296fab9ca286d;0xb3585d8062eef]].
Definition wit_Test_64_18 : colwit ipt wit := mk_colwit (V [0x560d6b3dad558;0x1fe54412629bf;0x4d422145220c6;0xc4e4c1caa163;0x123502e88e27] [0x2e828670316ef;0x5cfc36e846297;0x416379a05bfb4;0xf13ff7df09837;0x394e3d28df1f])
 [[0x856caf51b06e1;0x8629c69518470;0xb644361d1f272;0x538b228ca1754;0x53657b5dbdda];[0x3ded3dea94310;0x656580600382c;0x173a4dff66e79;0x5ad96dbb0ef88;0x15ab953c4b18];[0x1;0x9fdf98225461f;0x1c8b870a6a26a;0x7c8cc71d1fcd0;0x84cebf17094c6;0x27b830dac029];[0x1;0xba0679c2a0758;0xd157bd9a88df9;0x4e1f460e09d62;0x6f230a225ca95;0x105b028f9f822];[0x1;0xb26b495906d6f;0x80793663b574;0x1abca17128221;0x6923d0307d9fe;0x44318cc8901b];[0x0;0xc6f4ea164b542;0xe8a914a285776;0x6f2b80bfd2238;0xc5fe15873c2b9;0x990cd93499352]]
 [[[0x59fed1bb92a1c;0xab90ddedc819;0x1ecff46f4f514;0x2a3e808695a78;0x7836104884f1];[0x1;0x9a7656dff0b00;0xe6be6859ac51;0x4bc07f19a3218;0xc95328927d279;0x137ee1a79fbb5;0x1];[0x1;0xde9bb9bd80ff0;0x8092f4501d11f;0x6bb9095dc181d;0x13e3729bfbe23;0x94c05aae131d];[0x0;0x3d82623279b3c;0x6a8b8e0ce8c8d;0x554e728512b01;0x5e2abe3504119;0xd80336f3e261e]];
 [[0x423894e308f04;0x8fc16794bef8b;0x902d4b7e59e5b;0xf48e8378872da;0x4216af22e0c4];[0x1;0xa4af3e90a47a0;0x46f7d658d5113;0xdd5d7ff6ac5c2;0xcd7282cbbdf75;0x814b4ebe262e0;0x1];[0x1;0x42005187bbaf0;0x8708fbe73d3c2;0x17cefcc360473;0xbee7eab8bc55a;0x192d7247f1281];[0x0;0x57a7acdf88ee4;0xf3fa796e5bd04;0xc9f1e61b9d12;0x97a78693cbbe6;0x77c1de6d478ca]];
 [[0x704b597adbab4;0xb6e018f3576ef;0xbcfaa7e7f7596;0x474e487cab54;0x3062b90a33e4];[0x1;0xba8aeac168340;0xfb4e78853e5d6;0x9c627717ada07;0x7d30e262084f8;0xb576c85a3ae80;0x1];[0x1;0x446223192dc70;0xaf859ea56f16;0x3ad2a55d3ecbb;0xeb10673a3ac7e;0x10bf7b631dc5b];[0x0;0x80e94a2127d90;0x15deac655fbc2;0xdf1df8828833f;0x5cec5dc5a2131;0x5c75b6659b1da]];
 [[0x9a5c45a7c8be;0x430b57d9cefc2;0x52dbec58e0ef1;0xd8fe5af1f3994;0x7bd3cb0c2505];[0x1;0x3fce8e0579446;0x299337222527c;0x455c58ba4cbfa;0xe070443f815e0;0xe213abdb679c;0x1];[0x1;0x9017d8e72afbc;0x4a1bb115b238b;0x6e1493ef451a8;0xf6592b48dcddc;0x4b94bd9dc13];[0x0;0xd96c085ac2514;0xef0d7221e997e;0x2f1128b4e08a8;0xda6e45d566da1;0xf2691f2fef5d6]];
 [[0x3e1b0ffbd5a4d;0x2fab147a89250;0xc31e28af9f0ee;0xa9782d5b234ce;0x7f5ece0618e3];[0x1;0xbe6530f97d708;0x4f6fb27939f4f;0x72c2686cfbbe;0xe3290423fa40b;0xe5ba579be0ae;0x1];[0x1;0x6ea24721bf87;0x7933ea187bdad;0xdfe52c26c8531;0x27228fccc9a3e;0x463d75566394];[0x0;0x37c1cbed8fbd5;0x5fbb659e92943;0x4af57594741a7;0xaba6dc3a3a982;0xf72af8ac461ac]];
 [[0x50834ea08df85;0xc0b9b9912dd0a;0xaaa220c5a20a0;0xa1b8fca1e39de;0x630d6c7de7d8];[0x1;0xb25e2dede2a20;0x66ad54b730613;0x60363509460c5;0x1f92b7b1dd29a;0x412bb83e3562f;0x1];[0x1;0x1dec180264c97;0xf13fe5ea5c563;0xe00d3444e4ae6;0x42f7a81b6bdf2;0x60ee7b34f294];[0x0;0x9250f16fd42f8;0xdf12fa7345b2;0xcbf107ff517ea;0xd6033b56dedd2;0xbfc144dbc4b3f]];
 [[0xece4be0e2997f;0x31da0bfd39a69;0x97f26316296;0x7bf85734c4da4;0x4b59e2f0e20e];[0x1;0x5526db2426657;0xf6bca08bbb9c7;0xf4db27fb09736;0xcb67feff76230;0x78c59f0715cdf;0x1];[0x1;0xa09258d178e2f;0x4c9e9ae54488d;0xcf528c149aa09;0x91d04093a59f0;0x10a7721ee1189];[0x0;0xf098a37fc8408;0x5a3c28de1e98b;0x63a6e0877d3a5;0x23c2d6fdc03f8;0x9164310d7666c]];
 [[0x9bc17d67f4201;0x443c8f58758fe;0x14564723fff07;0xc9aefdc9f16f1;0x71e661921ea3];[0x1;0x9f4ca4012352;0x1956b89a9477;0x93321b8940386;0x236e25fdfc842;0x2eaa3394bb2f2;0x1];[0x1;0x926906dd672f;0x95b9c7af33664;0xb161c1f9bda3e;0xff8bd4e17582a;0xf271071eb0b4];[0x0;0xa950baecbc82a;0xc0a343c9a6a3c;0xc1f64c4317bc4;0xbebc2d6898ec5;0xe9ca9c1377728]];
 [[0x62c1cb445eefa;0xa5bf79c25d4c6;0x71c82676621dc;0x40891f8fdf25c;0x5bd316f72252];[0x1;0x9b1cc9f47e34a;0x908383f0c9b7c;0xf71573a46f771;0xcc550b8521d1;0x57b940e765829;0x1];[0x1;0xc7fbad892869c;0x4feb721423340;0xf11697e863a5d;0x39ab7c096737f;0xae1df741bfa4];[0x0;0xb077ef8efcdc8;0xf9397f80d6cb8;0x1210d6a081e63;0x99d656431b48a;0xb767b53fbb34c]];
 [[0x5d07c39538e70;0x7e942802792f9;0x7c191ff146b0e;0xcc4dd2037236b;0x7c6021c990bd];[0x1;0x94bcd065413a0;0x87b9c7c064b5e;0x4321ce9dc0a93;0x870c330b5b0c2;0x18093e56293c7;0x1];[0x1;0x752b76c2fbf00;0x9032b4737ef4b;0x7785265b0f626;0x7e8f0e2509132;0x9e053154ce02];[0x0;0x1f0bfbd490f80;0x4ecd5f383b780;0x9d4911a231b96;0xaf3af4c6a6c6c;0xf7927563b3362]];
 [[0x46aaf74703f34;0xb15e9f62ad554;0x8707c4f2e64c1;0x4d6e77b481a46;0xbd2a72caab9];[0x1;0x642e836604a0c;0x853cc64cc9218;0xb711d1138c0ba;0xe4d7f8121d3b2;0xf6b64d6f35911;0x1];[0x1;0x75cf468620870;0xe2600f582e26c;0x35dad6d59d7a4;0x3db5c5c7150f4;0xd7b216b4c4d7];[0x0;0xd0b5c4bc09698;0x1b06c3beb6f52;0xdcf9dd4fa0487;0xd8d47e32ff546;0xcd269c6a0f85]];
 [[0x9ea531a91147;0x8da56083c66f1;0x16c652cd524c1;0xbaea3857b0f4d;0x203fd134286a];[0x1;0xc4564ed4c589e;0x1c7d5faedeafd;0xbf78a8901e78c;0xc63c91b4f1b35;0xd1922fcc8f896;0x1];[0x1;0x48ad6c6438a7f;0x67b6907729ca3;0xc4ae4709c2335;0xde5278e6704b;0xb365db6702f9];[0x0;0x3506cf2ad2bbf;0xe48e352b0e887;0x1ca565f626138;0xdbd0bdf01756e;0x3f15bc5a3e535]];
 [[0xaae72150cef96;0xc0fb93c6268c3;0x4247f81eaf11;0x8bf7ced0a7619;0x59662e2b9935];[0x1;0xa6bfee7e2e5c;0x7217963f4913b;0xab0fae5bebd37;0xfac7c254c034f;0x5f98b69d2b22d;0x1];[0x1;0x1f9b2ce261adc;0x66fbfba1f7e9d;0xa330d2b86241a;0xd68f8d00bea8e;0x6838830a4b44];[0x0;0x4ddda2891b370;0xe67c8eb587ee4;0x4ed4e6d8945fb;0xb10d7ba6b866b;0xb008e967728ac]];
 [[0x7434b409ecaee;0xd4c7bab0c852a;0x8545c9dad034f;0x23ad212d45901;0x62fae0a8f82d];[0x1;0x25fd588fde94a;0xf384775638776;0xb473d8fed871c;0x5089ccb15bc6a;0x42ace6c3da01e;0x1];[0x1;0x8b768668ff37c;0x28bca6f2ad736;0x41ba3db9cdfbe;0x25492fdc62636;0xa5a9dd983916];[0x0;0x9ed7da068c3fe;0x474da57c92966;0xbc11f8a2619a1;0x28723e5c6b505;0xb32fc0550e202]];
 [[0xf2bd4f4846398;0xff0aff1825809;0x8790afcdeec19;0xd93e6365a924e;0x5a2f0d35d37d];[0x1;0xecc3c19391a88;0xc96380085bac4;0x402bec63ae38b;0x34da0acf7de0c;0x51d97f143bb41;0x1];[0x1;0x3b11cda65c1c0;0xc0e29a0d34e67;0x9ff288d30cc4f;0xb4a6827c2ae03;0x14b26ea8389e7];[0x0;0x892cdb6579ed0;0x639cf71175b5a;0xd3875010dadd1;0x66c47391b6ef9;0xa334ccc4e0ca6]]]
 (V [0x7ef8f1d4b086e;0x46ef0a784568;0x7031bc4ffa86e;0x4712f385750cd;0x3c3b057c990c] [0xf388d2566ffec;0x142cb02e4d48c;0xe4ed76731c968;0x58fcaacf0c05b;0x12a17dccbfd7]) [[0xd9f5fc2ed1cdf;0x5c882dc0868ca;0xe4291bae677e6;0xd051a488cb4e5;0x793218be3de2];[0x1;0xb44ae0a5626b3;0x50d37cbc2e253;0xfddfbc7d5185c;0xf49dfffa6af47;0x1f132fc620686;0x1];[0x1;0xcc8ba5c764cef;0x56999065404ec;0xf1fab6bb4ba72;0x8b934d12703f9;0xffae606499df];[0x0;0xda61ee5c23f66;0xacef77010e8b6;0x4dc1138d166cf;0xa7c83c835f68b;0xf276084c69a20]]
 [((V [0x3a160d13ca922;0x872bc5afabb67;0xc58b3067df48d;0xe3ae9a7f293e2;0x3fff1bd990d9] [0x5206db7b0fc2c;0xf543110786552;0xcc5e340c968ef;0x7d3170628afcb;0x3ee27b4bb105]),[[0xa6b2f43adc90b;0x8a4cff4007a60;0x7b4f9706dd339;0x55dec37d1481a;0x51e0250f9f3];[0xc9bc221429216;0x589c8affb3dcb;0xb8d86d48e1eb0;0x276b48f2a683b;0x3188f26a712b];[0x1;0xa8b1e9694397c;0xf0a82b8f6066e;0xcca6546ffa66b;0x7fa513c9256e7;0x46ba747903c1];[0x1;0x33eb1d19faf38;0x3fee3b6492594;0x571ce6bbe8865;0x631625fd8a5e3;0x227b8544b117d];[0x1;0x4292b5d064337;0xdab5ec5e8cb6f;0xde3237c4acfc0;0xfbd96871e934b;0x170b5ee6e1c5d];[0x0;0x3f5265a2b75ef;0xa715345c24b36;0x31ec8929cdfd7;0x3ec80989ea48e;0x5afcf5904ea]]);
 ((V [0xab8b2abe00f46;0x9e1a430fde89d;0xa70f5610fa9b8;0xe82229b55fe38;0x50b4f0eded3a] [0xa39b09e6751ee;0xeeb8dc13f5ea1;0xd1271809f1b3a;0x66736d8513cb8;0x6e9a78b95c75]),[[0x4b9e11abd25d;0xa8ec73e2a15ee;0x844fed8e0c029;0xc4ce312c39404;0xec430140fb0];[0x898c790cb388e;0x1d4d186716644;0xf6c2bcf54baa1;0x9b9e5772c726b;0x3ba58fc327fc];[0x1;0xdb526e167dc3c;0xed1eb8776370c;0xe4a165baa43dd;0x5c0bf05f76aa0;0x574c03ab2876];[0x1;0xd6f87e9eabe88;0x28ea4c33bc1e5;0x7f4e8f388634c;0x3fff648d1e6c7;0x2575f0ec336ba];[0x1;0xc4144efc322e7;0x95be7e3408905;0xfafd7bf8ed10c;0x97ad6e6a993b1;0x19fb23a0a6aef];[0x0;0x4bdaeb7436aa9;0xd1ba61ccc6cad;0x87fba99e247cc;0x35bd9d4b0346f;0x8a62ca889b2e]]);
 ((V [0x32edde8d63b68;0xd6d928eeb9940;0xd684ae13e5393;0x903122125a423;0x4c759fefe3bb] [0xd4ef5cc61847f;0xd3948295e8a5;0xf29ca978b17da;0x1063894c1d17;0x1b1d9f51dd6f]),[[0xfe8ea6e4b4990;0xadd6be8eb5a28;0x9f67f1e2512b8;0xe277196baf96a;0x5e32b8017ad5];[0x9860ba5ea4534;0xeca5d39903295;0xe66bb94d60ad6;0x77ee01dba3078;0x4760fd3a2541];[0x1;0xdebbad8931b9c;0x5de9d6d529018;0xe293534c0a217;0x2425532f466fd;0x5bdecd837f50];[0x1;0xe9a827c9ecc40;0x1e5aa1906f798;0xc4d2dd6840a9f;0x4111111e5e6e1;0x2097b675fa525];[0x1;0x2d62f181cbf00;0x5bf8acd2d3ac;0x13acf4ead3e73;0x6407c4491e01e;0x1966c713c864c];[0x0;0x5ec8cf2454c70;0x72e369c1711df;0x1084a6bacf62;0xde701e58c91d8;0xb1439b66ba4fd]]);
 ((V [0x6b2da2b4f8b3;0x68c03e4d501db;0xa918773ba130;0x7df8e79253e85;0x60fe2577bf33] [0xc831d1e2ca51d;0x597aa3a702f9b;0x7d310bb739939;0xf23498cec718c;0x52df23465151]),[[0x2c96dd7a1b01;0x523adc5619697;0xc7418dfe0caad;0x90771e59fbdce;0x1937f4d4cc4];[0xb4df442bfb23b;0x27a2cda14c277;0xe7a47a401a42d;0xcc98e50404e9f;0x5889b6ebecba];[0x1;0x9c7f2843491c0;0x3149232b72449;0x7538e7f2472b4;0xcfb7d7eb16b14;0x836753d3d0a2];[0x1;0x5890d399066a2;0x5f50e235d8cc5;0x8af1948b2238b;0xdd95fb43dad28;0x3128f5510cc91];[0x1;0x6c603cefa152f;0x503981c00888c;0xbe0c495573933;0x43f4102629480;0x1f3cdd2baf3fa];[0x1;0xb836e4bef641a;0x76927b6bced59;0xf0f3fd32e51fc;0xf9ae34915a0f5;0xa836d679bcd5]])]
 [[0x63115a020c544;0x60eb61b8982bf;0x804b8e3ddd367;0x96d35ef3f6856;0x226986c71f43];[0xc1578e75dfe8b;0xdb04e52fd84fd;0x521374f3bafe1;0x7a91473f21376;0x10b050e4fa0c];[0x0;0xd0bd5eb4bf279;0x73921c212afe6;0xebceb162b87b4;0xc6bf26e229838;0x281e8f0668ea];[0x1;0x1f31d4b16e218;0xdd638afc3be2a;0x4d5088a5cbaa5;0x696643cd6f05a;0x13792b6059991];[0x1;0x93b8e7341d8f0;0x2b2806f897f29;0x54bd20331d7dc;0xc8eac8749dd83;0x249552185c4c7];[0x0;0x81dd3b272a100;0x967fd66c91663;0x5e83a03f30e6f;0x7559f438ecb7b;0x3bb52186420e4]].
Definition wit_Test_64_19 : colwit ipt wit := mk_colwit (V [0x37ff99266af5c;0x1c3beada2ae0a;0x2975f5e17c9ce;0xd693cdd0b20b6;0x2120d01f984a] [0x751171d88f6b3;0xe77df245a79fc;0xcc5c97a0087d4;0xb09a78872b464;0x5b87bf0027f9])
 [[0x5da5cfb284b24;0xce3c9394246a9;0xe70354a6871ce;0x9feaae096bdae;0x242baf22df9b];[0xf4149984ac859;0xcc8dfd84ef92;0x1a1e0586eec75;0xdc70deb5fe44d;0x244680430772];[0x0;0xf649f55d8d310;0xf2ce2ef18e32b;0xb70845fc78f3a;0x401e143791f88;0xad37a85b41a];[0x1;0x31ca66426f370;0x45cbc0650ca42;0x208f6096202c3;0x1d5f7c14b41f0;0x1d60606710091];[0x1;0xe4928e6e905f0;0xf9e84e3ec096e;0x67c060be4397a;0xc83d9f71b68bb;0x1d542e353721c];[0x0;0xdeb2f3dd0444;0xbd08286c08dc3;0x198403b72281a;0x44cae8bbc8f62;0x3f98f6a6bfa1f]]
 [[[0x45399b02ff87f;0xc5d3cf2a06b69;0xa896cf0f7b236;0x6c24bbca2ee98;0x6d8f049f5658];[0x1;0x200c15e11d3b9;0x8a6565ebfdd60;0x18ff27f2df296;0xc7c52fed8165a;0x3c6d9baf5381f;0x1];[0x1;0x309ee3b36ac2f;0xbdcb63cd5b8db;0x3d1d396c9c426;0x5c277d8c23e8d;0x1ae7db0511a61];[0x0;0x10be8b3c5e78c;0xc15ee4c305568;0x32cfaee9bdc6e;0x253fb6b448bfa;0xd8278446e1cb7]];
 [[0x328d9b61fa70;0xf838a3fbadc7f;0x419335ea47101;0x4587f7ef79c52;0x14db04caec47];[0x1;0xb3c05fcd7aac0;0xdf391c846fa3d;0xc009a9d34dae4;0x3992b2f53a029;0xe98f385d4de74;0x1];[0x1;0xb04ac39693f00;0x115304b8cebdc;0xe8ee87391e90;0x5c530b4c05afd;0x21ea2365a8867];[0x0;0x7aac995c9d30;0xefb67e24bde93;0x42c1dac3541e1;0x1ba580cd7f460;0x1d996a83cc9bb]];
 [[0x24315b1a7c3cc;0x6a3fc671b734;0xb818e941b46cd;0xd77c2cd956a46;0x6781639bc246];[0x1;0x62968f88c6380;0x9da727d9e0bf3;0x2d3d1fb654d30;0x125c571eb08e6;0x4455ed895c125;0x1];[0x1;0x6813c52c1c070;0xff03216a224a4;0x9129b30e68dc3;0x50c3449bc640b;0x19ad1b731dffc];[0x0;0x47d7336062870;0xbc930072a91e3;0x52fc3ddeadd45;0xd96be86d79e46;0xc69354790fc0b]];
 [[0x84211a0e7c8da;0xccf28eee14119;0xd618bf741221f;0xfa7b7681e940;0x715606ab9adc];[0x1;0x220a62eea5f92;0xf797c9f136329;0x5435a6432bd83;0xd0366fccf8ea4;0x2b7b2591e2d5b;0x1];[0x1;0xf6ffbbc1a011c;0x9442d0503d83f;0xb766fe382b755;0xb292955fe9081;0x1a400a8ba6813];[0x0;0x7f2d8881bbeb2;0x78c4482061009;0x8469bc91c2f14;0x66de165484ec1;0xd81b0631f21a1]];
 [[0xcbf1c6bc395cf;0x6d76562a588e4;0x19fd6012c336e;0x5b594bd13f155;0x41950c400ac9];[0x1;0xe4f213c053a7f;0x4cbf7cb358edb;0x6a47c9e4ec6a5;0xd11df44058566;0x90f1645847763;0x1];[0x1;0x5bb9709a32fcf;0x3508fe6108356;0x70c764efd3a44;0xffc51076cad26;0x1dee80322435c];[0x0;0x7da1a24846b56;0x974ef2f90b8d;0xa00d735ac5c6c;0x44ac5b7bff534;0x74aa3dcb8a7ed]];
 [[0x84cc063bba260;0xb6ebdb8fc5e08;0x9d93002b61b95;0x658acaf6fb122;0x24879696abfc];[0x1;0x6fe8f9424ef00;0xa893968e55f97;0xab7e917e11478;0xa4b1e4ec2bf9;0xc3df07e71ee31;0x1];[0x1;0x8fc2122dd1c00;0xf35827fd121da;0x3a28ffb583f46;0x1730ed4d80819;0x17b4eefa40279];[0x0;0x9f2b91b8745c0;0x59d2d2676a1f3;0x6a543ac37d05c;0xcf5137020a3fc;0x3851875949c56]];
 [[0xe483a7b5bfa1e;0x34427bdcd84a3;0xa1e9d9be945e6;0xface5c37ac75a;0x2c42b66b61e6];[0x1;0x91d416799d202;0xde125c29b20a6;0xe43827149d388;0xe171f655081e0;0xbaa4afc6df633;0x1];[0x1;0xfdbcd2f55b93c;0x30df16ad54183;0x61dd2aea11740;0xe3252b7efb36c;0x17cb00356fd81];[0x0;0xcd536b9453810;0xf8cf17c1056b;0x9c536445afef4;0x46b045b7835f2;0x50f42ceb9dda0]];
 [[0xe1788140e0bc9;0x64abb0f7ca64;0x61995164fb8af;0x3c6a80abfffd8;0x4541fd796435];[0x1;0xf13603c988c58;0x91e4df919470f;0xc2237757ef2fe;0x8aad9303e4a69;0x8b6eec5b392f5;0x1];[0x1;0x75033f832ee5f;0xcd5b100c9c644;0xc75c3bbd73bc0;0x7d47e846af263;0x1908894095d88];[0x0;0x32becb0945090;0xdcc84396308ba;0x5b0d184f456b0;0xbc4e23f85e5c4;0x8ba7955270844]];
 [[0x7fba539fc1012;0x8c08afad70578;0xacf18543b6327;0x25275964d41;0x1e922c36b58e];[0x1;0x7afd73f530de2;0x9817146626851;0xb7b35d0e8906c;0xec7815fd850e;0xdcf9c3814a4e9;0x1];[0x1;0x98b84489c677c;0xdb2212a0bcc07;0xa53f9621ac3dc;0xb9c5a7b75b7d3;0x18c779850e8b2];[0x0;0x5b0ead65475a;0x5941b52009e36;0xd9aecbacfd338;0x5ace6c5829629;0x316b7f18e7e2d]];
 [[0x41d2f25a46571;0x727e286995eda;0x71301d3468a47;0x5b062b3832f92;0x6f2ab9de3a05];[0x1;0x6a1d3dbab6975;0x8ac5075400c18;0x7318359466d22;0xf64d010cbc64d;0x2b52f240bae62;0x1];[0x1;0x7cdf30640a94f;0xa783dcd9cca7a;0x99a34c194fd67;0xf43cf7170a984;0x118e3e42292ed];[0x0;0x169ca2f551c20;0xbb3f7f4cdd31e;0xf5c0ab6e8c5f6;0xff0d5f61b6223;0xc97357529046c]];
 [[0xaa1702e8fcae3;0x4b45a0f95d16a;0x557389428f097;0x46cded9d3b9ae;0x79d51998223c];[0x1;0x7595909e4a612;0xdf3c25afb7b73;0x83bc504ecd1d0;0x8e0fca152bea9;0x13c43b56c59c3;0x1];[0x1;0x8637acc423b67;0xf3aba211b125e;0x79bc4ed0e9165;0x285c00332eb13;0xd80af66eed72];[0x0;0xe5ba016179f3d;0x673a91a6ff6a7;0xe3e5ccf47a7da;0x5d24e96d37516;0xe9a6ea1b0528f]];
 [[0xb417d8f93f7ce;0x461975393df1b;0x18b494e6f0089;0xf8f0d92b9425b;0x42eb7e2d7d74];[0x1;0x17c0500955470;0x3bb33a1e2a6e4;0xd6279b674db7a;0x762cb78ae61de;0x8e99a3b5a922f;0x1];[0x1;0x62fe5635496fc;0x69211cf1a40c4;0x2980403047039;0x94129db221695;0x10bc86e29f1a5];[0x0;0xb4adc1a355af0;0x652501838f7dc;0xf6c056aa8bdea;0xe1af68afd23ca;0x800d1046cdef8]];
 [[0xac4bde0572fcd;0xa549bc6016297;0xd91cb57db9885;0x2f2df764b9105;0x3b7de4ee831d];[0x1;0x7b69e0249dad;0x53b210db829d0;0xb6dd1015aad25;0x767582fe86f54;0x9b2e3ed62bbfc;0x1];[0x1;0xfb89ee310e087;0xd4bb0ca73e453;0xb1d7351572324;0xbf843f5219582;0xbec865a22b75];[0x0;0x3913b26f064da;0x7e23fa2e27eb7;0xcf4a146fa400f;0xc41ef58b45c72;0x6866d81e85235]];
 [[0x2e8d574fef5a4;0xe55e810c1d972;0x27233a0b4b214;0x1ba118d9d751;0x3bf492c5cba5];[0x1;0x4d2330717f500;0x4b37b781638fc;0xef7b7eb736711;0x49166caac094c;0x921c1e117da21;0x1];[0x1;0x26cc796c991f0;0x798e38a66bac5;0x7f59e13e5aff;0x41f21c5f1f278;0x9c2c60fb09a0];[0x0;0xcdb3174a47c7c;0x4220725516f03;0xf6031123b4b7c;0xb6a84115180cc;0x6994e79968fab]];
 [[0xea5bab90094e0;0xb225fc04378af;0x2c29cc5e6ba73;0x601a602348b24;0x2afcf17250a4];[0x1;0x82b414059ec0;0x24f47441674c6;0x3d2067c9ef4a5;0xe805ee6bc90c4;0xbed07c3aaaf0b;0x1];[0x1;0x82391230cfc00;0x947a2a2ff839f;0x4320d8909d0f2;0xf933f5af408a1;0xa62db1507e09];[0x0;0x5a5802e871820;0xd131ca8ffd9a1;0x39b0ced90008d;0xe1be5649a46ff;0x47fa65d56c8f1]]]
 (V [0x4653e23e78ab1;0x35bde945a23b4;0x11f1826bc69e1;0x2000a055c343a;0x4de77140980d] [0xfe454ae5b7572;0x340900e0f3522;0xdaffca179d39e;0x2c93ab872d27b;0x104621fbada2]) [[0x8fbd3f39e40b1;0x9ce7b1cdcbca5;0xadaf8fa2842c6;0x473ace550c493;0x13668cd761e0];[0x1;0x67dee8a58153c;0x77606b19d3f93;0x35c2f625dd8fc;0x2d0a33d09dab;0xdadc66e617b57;0x1];[0x1;0xbdeb5398342cf;0x71564c86e45f0;0xb1270b81123b5;0x95ff2ef544317;0x186204cc275fa];[0x0;0x5932c7e065071;0x92c4ac97aecd4;0x1e319cad88bca;0xf03b78b174d38;0x184aca9333e5c]]
 [((V [0xeb1e8dc34ce13;0xf9dc3b5155a9e;0x6029bfd6c3bfd;0x539cf1b289b86;0x285ac223de44] [0x82151f35539df;0x9dd29c85f9d4e;0x573347f8d313a;0x48b9b22137394;0x5d813783eff1]),[[0xdcac8f5e06ce;0x813b7bd317837;0xf14a867f8fad8;0x4014974bcd93d;0x39b565361e17];[0x9d163116c411b;0xff3ee87449884;0x9f6ee926efd6a;0x47b9acaccb78e;0x1c596a0f9399];[0x1;0x164ed5f32aecf;0x9d95e9aadd518;0x687aa671edfd3;0xc88327ef6965e;0x948bd6246e9];[0x1;0x86458458bf308;0x3e65183e4e489;0x92507cde0ed6d;0x8c34784328eec;0x19b6be604c2b7];[0x1;0x9bf406df432fc;0x50a1987410f19;0xd6f9251d52c8;0xda0ab7ef40a02;0x16e4eba155cdb];[0x0;0xaa1f4ddc038f2;0x5b4a1ba0af;0x6bb2793282bcd;0xced794cb9a464;0x6a5c13595f18c]]);
 ((V [0xf717a7425b6e7;0x3b36bf811799a;0x65f6cd97e158;0x343ed1b31b336;0x33e443561816] [0x9bb68cee5f55;0xce52a4e07a3f8;0xdbcd9be51aa22;0x1124095decccc;0x74270577a93a]),[[0x68b1cbc5b4c78;0x4a208739845c4;0xebca3a864858e;0x13d3a53568651;0x4016c7c55e4e];[0xff9c2090334cc;0xda217b5ece758;0x6422e70bd93bd;0x7f514bf5a0c63;0x3332a66141e4];[0x1;0x6beba35ad1147;0xab14c065ab415;0xe969c5b9ce8bc;0xf67ebf612b6ca;0x59ac5311eff8];[0x1;0x21265b6a8b9f0;0x229a98a8f48fd;0x68a397c89672d;0x3c0f3fe1e2c98;0x1d58d667a61ea];[0x1;0x704f6b31d3c0;0x108760c1750bf;0x6ad68cff412b1;0x56b7a0c4309db;0xe91cc368674e];[0x0;0x5a7b84c418a18;0x340c3b3bfcac5;0x8777d9c12c0d;0x882e70425a36;0x699d8783d1332]]);
 ((V [0xcb904bd5cb6a6;0xd89cc5138499;0xe92f930e08e38;0x8c02c28d4934c;0x10e509c45de3] [0xdda90306cf87d;0x2cecd5f3e2726;0x1ee2294ffaec9;0xf07e2c8b3415c;0x380f554367da]),[[0x3430f79e9432e;0xdb3adbbdd4a01;0xb10f044741f8c;0x69a0a4845bf4e;0x7bca34bf923d];[0x20a5589c4fcc3;0x86759a623811f;0x48c13e27c09a8;0x9ce339fba51d4;0x7ce2f2fb0c99];[0x1;0x506cf36b38bbf;0x8b5e3f60e4d90;0xe8abceafe4475;0x5deaa4013319c;0xe4bc693d77df];[0x1;0x16248ae54ddb4;0xc923b9d2362a8;0x270cd1461f33;0xf12207bb675b9;0x30ca7b87bae61];[0x1;0xa91f1d1839c7c;0x63b0ac23cb9f5;0xca4ccff4cbbe5;0x8aa1b08365362;0x79a344125caf];[0x0;0xb714e2155bcfc;0xefd882b0e6982;0x5420a4046c393;0x23515b947f16a;0xebe7ca1c0aade]]);
 ((V [0x4cd941c79dcc8;0x294d9ea2ab5ce;0x65882a16be265;0xbbdae9c546249;0x1e40fe996e56] [0xeef03c97e1236;0x276f3aeb1bcaa;0x110efb19c6110;0x5f919e8355c80;0x2639348022e4]),[[0x9f637d22a0616;0xc6ad11c764d0;0x9426ff9ff34f;0xe0908c7abe360;0x2c886a1cef72];[0x56c93490740b4;0x6c7d980374e7;0x44c9fe909065c;0xc77c5abdc78a3;0x64fd3728759e];[0x1;0xd4e5e2adc71c;0x1b8fa08504a34;0xf6057b83a22b5;0xef533d8cb3765;0xc7bf920ae065];[0x1;0xfc6bd637a89c4;0xee75c379bf07d;0x7647a6f5576a6;0xa26867bab70f3;0x336ed42cc7d6a];[0x1;0xb7621524a1cdc;0x8d8fe31824822;0xb0a03ef58f9d3;0xe61f83dfbbe4f;0x7097c9ee9a27];[0x0;0x98e8d02e5e62a;0x2f9d963488d78;0xd8e949e4e1706;0x8ef680b3a5579;0x4fc5ec1433c6b]])]
 [[0xf8137f115d97;0xa17d4ae369b38;0xbae34eaac971d;0x27b062f946bd5;0x528b048a4547];[0x9afe94f8bcfb3;0xdf96d34985893;0x650e51bc2e873;0xcbacbca0ee272;0x3989b16282bd];[0x1;0xa02bfed57afc0;0x1745550f49302;0x3ecc53b085c99;0xf2bca0c069637;0x6becca6c85ea];[0x1;0xa14114058f60c;0xffa63993d6ac5;0x1d0df01224699;0x15c2dd202a41;0x227edd616b571];[0x1;0x906c125209f1f;0xbd0ddddb54bf3;0xa919ffa2d180f;0xfd63a3c700957;0x11840276b1aaf];[0x0;0x918b0e6c992d;0x69afe67bf1858;0xabe72d615f5e4;0x656c67dc901dd;0x998a3f81a8b39]].
Definition wit_Test_64_20 : colwit ipt wit := mk_colwit (V [0x67df15dd89a01;0x60c03225b96bb;0xb5dee8889a337;0xb6d2c99b26f19;0x35ed77a1f52] [0x66f665f7d6e9f;0xaa7c64892234c;0x1d0a37a345cf8;0xb69b45d376c31;0x5ce403b1cdb8])
 [[0x7cb891038ea51;0x384f6aa1670e3;0x5cc459ea2127d;0xadfe9ccc9d7fd;0x7ecc01f85876];[0xda3a879467eef;0x2554c122e3369;0xd715a9eec4688;0x29b056c18ee21;0x4262010289b2];[0x1;0x3dbf1385f387c;0xa1725b75a11bc;0xe29dfea5e1766;0x1d70d56ecab10;0x2c9973685be0];[0x1;0x885674e7918d6;0x21ccba37c1c72;0xf148cbdd53b8d;0xf7bfa8e2474ff;0x201cb10948e8c];[0x1;0x862326d656b8f;0xf5aae22789188;0x27fc1b43d18f8;0xdbb11f314b102;0x132108991d5f9];[0x0;0x1cb0ccf20a23e;0xc37920e356e;0x37e1b25837231;0xcd94a52460f07;0xf769312fffe90]]
 [[[0x404d27f9d1e55;0x96f15563776bb;0x65ee8fc6a0b5;0xebef63ad6bc27;0x2cbdb35bd55b];[0x1;0xbeb7582cdabcc;0x8f40cac94cd86;0x4a2274f680912;0x90a63b8ea421b;0xb8b71f05528a8;0x1];[0x1;0xcaded78c1577;0xf0796af172a9d;0x2b7b33662f73c;0x9c3aebb5f6d72;0x10c6de0b75655];[0x0;0x6b2c9da8d86dc;0x29e3a5d713d51;0x766f2144725e1;0x72db0b7592b1d;0x4f63865f0674b]];
 [[0x2415c80e08f2c;0xf96e3362fd764;0x2c3601c42d1fa;0x5b2d57ca41394;0x61afbe3d6a2f];[0x1;0xbe4949bbbf8ec;0xbee1c0c44083a;0x2d2d2b76766e3;0xf685a9bb2addd;0x4de1ce09c802d;0x1];[0x1;0x647ea1a83eb70;0x4eba70165e180;0xef432b5d734d5;0x972e92e2085ba;0x68c2a98e61a0];[0x0;0x420dd59a97dfc;0x4c33fe6f05e30;0x2b354c4b5be27;0x5a13ba397ad37;0xb36e999cf3561]];
 [[0x5f6851f337d82;0xe4da33ac49ae1;0xb1d586c5b5f0f;0x655d9a7e33800;0x40684b8c2ebb];[0x1;0x9bc41c1a9252a;0xd93ced1efa91f;0x7bfc561938bd1;0x8e05e459fb4ef;0x88f8a44c0153e;0x1];[0x1;0x9cdf41c7496bc;0xa18e065c1e01;0xfce616f808103;0x16fd358690699;0xae2d42741c43];[0x0;0xcaee973878fe8;0x12ed38a57c20f;0x185d93df3dfb6;0x4b6228e9b45fc;0x6617731319059]];
 [[0xaade73652c11d;0x838a6794d4bd2;0x2a9a3ccd954fc;0x80801560101d6;0xdd60e61731f];[0x1;0x706a09d62563a;0x2bc6e546fc83c;0x7fb8b8da4fdc6;0xf9e711d4fdee1;0xefc1b3e3ee244;0x1];[0x1;0xb48988f810367;0x34fa1117ca45;0x9c7c7ff52973e;0x1502366b91e2b;0x645492d88d3d];[0x0;0xf8e808fa2fbd2;0x723c409c4306a;0x3d9e75d171a5d;0xcfeb7c9d71aa;0xbd7d1e21f23b]];
 [[0xe752abbf8b929;0xbc3ec81fc7e21;0x1184b4f0a2df4;0xa723092c8a5f8;0x78d793de6170];[0x1;0xbbf89f90b7311;0x9ba5e049ca0bc;0xdb669db8a1500;0x7dddaf064a541;0x20df9825707a4;0x1];[0x1;0x94e9a378cad9f;0x8338d6751f468;0xda5fd449969b3;0xeb339b83343ed;0x4bd0bec7c2ae];[0x0;0xf475857536874;0xbbd11b62b71da;0xb4442f9ca6b6c;0x3981e6c888d0a;0xef2b891f97600]];
 [[0x898dd50509e40;0x77dd30a4b36ab;0xbfc0e6211fb87;0xbc71c4329d8ff;0x4ac3d705af0c];[0x1;0xff6e0730cf180;0x3370f13535946;0xfd1f1fd5a136a;0xd55700f9a9049;0x81207fcd844e0;0x1];[0x1;0x528ddb16ff000;0xaa92c534f29b1;0xf44d8a17a5ee;0x6589e8eb21a9a;0x14dd5d5509d96];[0x0;0xec9c62ddf3f40;0x39033d9997e9f;0xac053839f3832;0xc4bde0e5e1231;0x88c1fe41538ba]];
 [[0x6c33718408dbc;0x510ffe905679f;0x86c606174fcc9;0x1b4e874deb3b3;0x14655839be2d];[0x1;0xd40f7804f73b8;0xe84fcb9809fdb;0x37dc562eb580e;0xedeb8e3758dfd;0xe4a6e100a2064;0x1];[0x1;0x49a40070e70f0;0xe84a6d604e747;0x9ee47cd706ee2;0x4cf072c4ced0f;0x18aebc1d91b28];[0x0;0x769e5825c7b80;0xc380177dbd1c6;0xe050bab87cf11;0xa14621a4a3d5;0x108e40b41e925]];
 [[0x5c7deb0d5b414;0x48d8a43caa6c2;0xea056893f3d83;0x1ae75d8828184;0x2551a3ca7b09];[0x1;0xda596eec2aafc;0xa18e06be5e567;0x7b9f2cbe515bc;0x8496d9e361110;0xc4c2393aeaa09;0x1];[0x1;0xc7c8d13a55970;0xf6067e18597d2;0x267539876fef7;0xff9cd3e0d1b31;0x115cc87812302];[0x0;0x51c41120d9f74;0x88048fd26162;0x46f75aeff5005;0x1b0fae3fd6823;0x339ec2203af8b]];
 [[0xd26c5bd8b8046;0x92855ebb5f3d5;0x3906126886627;0x9f17794890e77;0x47f1cf7a63c0];[0x1;0xaa08e1ed9f562;0x7901d599518eb;0x7586234c84847;0x1aa1821857fc8;0x79bd9643b7c92;0x1];[0x1;0x98489a01c8f9c;0xbae6bf4aec542;0x695887868fea7;0xfb25025792a4c;0x9ab9c8f0de8f];[0x0;0x80324523119f8;0x1eba3eef18b97;0xa5056238cfe29;0xe14796d7402fa;0x851ab15e1fc44]];
 [[0x49774fe183343;0x8ed845d2944b9;0x1c3d126ad7d6d;0x722e6e7c82e86;0x1ce023a1cf94];[0x1;0xc3ebdc7a67738;0x2a642c88a64d6;0x9a0cefbae7649;0xf980f1c485a07;0xe0bc5f9d15734;0x1];[0x1;0xa4cefd74be927;0xca8daa98997ac;0xa0667f746fe3c;0x800bb45f139b5;0xbbf65a8c3eea];[0x0;0xabd9859cfed2a;0x5cf5112b7395a;0xb0fdd50618c0c;0x360edce714055;0x32daee8450d9f]];
 [[0xca73178254fc7;0x2caaed34c63c;0x4de424f294a7d;0x1178d03038371;0x1a501dd1b862];[0x1;0xedd0f0a9c1f1d;0xc598142e6324e;0x9025a0e369e22;0x63f323e2ce214;0xdcf3bcc37ab8d;0x1];[0x1;0xcf6e4771eaf7f;0x5d44d57fcd81c;0xafa5e85455bc1;0x38a85514764c;0x1283a3630c3cf];[0x0;0x2eb4b5c8d22c9;0xbf0a43e3dfb24;0x8a8bbb54b1b4b;0xc68e8fe4fce94;0x275386e27c826]];
 [[0xa30c9c7c64b69;0x35fe0b3dcd74f;0xa9be6c6933b1b;0x1e148393a885f;0x6d24817ff869];[0x1;0x5f8bc2824b275;0x75409b2d8cddf;0x6d568f656b0fb;0xf2292c94cc86d;0x3ad210120c52c;0x1];[0x1;0x4b1952e875d1f;0x1ae61e4d8aacb;0x5bab6484613aa;0xff258e84acc;0x16e4a567a7104];[0x0;0x4999d43dfbcc2;0x1e6b3b26e3267;0xe107eb7f20540;0x531f682ff938e;0xd578f6ae8a120]];
 [[0x2e469a6ebce4c;0x435163f1333c5;0x1af06fd844b97;0x39f4ff136ac9c;0x10800bc9363e];[0x1;0x7b5750667c950;0xacf2d8b555505;0x992cc25d3ed18;0x111eb0e909e90;0xf4b9f5f6ce4d0;0x1];[0x1;0x71d8595d70470;0x3628d960d603c;0xb76ab837fc3e2;0x45bf248706ae5;0x1c5f0ddb71766];[0x0;0x6f85891343df4;0xf6ffffa0ef89a;0x504139d255b8c;0x82e17de9c8ea2;0x16f38eab7e383]];
 [[0x51e5995da4cbc;0xf6c9e33a2aaa3;0x2a1d014cb4978;0x6f3be57f9856c;0x165218af4441];[0x1;0x9eae11afc4948;0x10e8eb7f54e51;0xcb0f91f5fae3;0xb039f354d0cf1;0xe9493f2a01775;0x1];[0x1;0x8d29b829868f0;0xc8bfd52b4fd0b;0xda9761302483b;0x1e3f0b46459fa;0x1d5b342b39a8a];[0x0;0xfe62a3b97a42c;0x48f2ab4509c99;0xb04650040541c;0x548d10c10fa39;0x19c18cb8ff796]];
 [[0xf5baf37aad265;0x67ddac1db1f17;0xc9f86176cd1a4;0x49c7426066ffe;0x40e6c93d934e];[0x1;0xf4deee3790372;0xd77abd020912d;0x58d025f607c88;0x2e8803508edfe;0x8b0f63c91279e;0x1];[0x1;0xf2285f87bcfd7;0xf508a45c66672;0x4d2ae64fb44e6;0xec4835f51a063;0xf6c28c5acd18];[0x0;0xed3f8873de551;0x21d7a5f36749;0xf3f32d9fd52bb;0x9cd5d482a36e3;0x7670cc532282c]]]
 (V [0x6dbd22bb8c481;0x72cfcfe5bc005;0xe1261a428b9fb;0xfe6602735e35;0x60e88edfc4fc] [0x2163635301a4b;0x4b6de7134422;0x400bc987b27f3;0xa877bdd100cad;0x1aeec9d761ba]) [[0xd1a58c0ecd37f;0x90a520412d7d3;0xc1e646cf7afbb;0xd1c0c66315fc;0x368899486333];[0x1;0x1adae0a84890f;0x1272df026de66;0xe3fe69e9ff841;0x6b140e8bee6c1;0xa13b47680e985;0x1];[0x1;0x4342de488422f;0x30ee261f7db;0x70f3fb711c363;0x5ac5aeff3a9d3;0x1905b24c6e779];[0x0;0xf37c1430cb710;0x44a7114c6965;0x2bd15dc983f1e;0x55bf0fdd8d665;0x66331133f3c24]]
 [((V [0x39bcfe683730;0x80640a5611ea7;0x5a45d7bfdae91;0xa4cb81be4cbf;0x5ab1e3ecfce6] [0xfdd12385a7806;0x322a459e76873;0xaabd011427df4;0xc4dc4637dfa3b;0x19626544d831]),[[0xb7d364f3097f9;0xb362e980ebc0a;0xdbb5bc33f97ed;0x5d5485b39f656;0x2049d36d6a08];[0x3655e027853b5;0x86890f8f65e28;0xd78ea8bf58f1b;0x32ace3ad60bea;0x613cffa24bf8];[0x1;0x71a515ace122f;0xf13de3022314c;0x9e4b673a522a5;0x3785c34ef566c;0x791b826e65d2];[0x1;0xe0be793fd3a;0x40e7e359d402f;0xbcfe063c75289;0x8676f57e7a7e7;0x339d7878a9087];[0x1;0x2a6524bc93ff;0x2b83a4239a274;0x9864ae0c8afaf;0x1ce3b7cad8b10;0x230e0ef0dd2b0];[0x0;0x1f388b52a0932;0xb3736f38b3219;0x2166e1eec9546;0x41490f275e52f;0x3c273230fd536]]);
 ((V [0x6ca5ac6bb6b74;0xb376c640756cd;0x42d134faa8948;0xf6bef040c765d;0x4f2d09c48ce2] [0x1d134de15e79e;0xedcb22b553ad6;0x4bfebd6e872ef;0x9ddd334738277;0x86bcfc1b9ef]),[[0x746112d354ee5;0x88db7cebc9bee;0xa93d7a34ab277;0xdb0fc3089a64a;0x7fe036e4b20c];[0xc54b05ce5cfc0;0x43cfa6f8a3013;0x562d5c19e55a;0xb51e7b81d85c7;0x6aa1cc1cc05];[0x0;0xeb1d71172f900;0x1a03bea9f830e;0x4ace28ed76a9f;0xc839d88a340fa;0x32eee63b9cdf];[0x1;0x7c8e4b561b484;0x23e2f443ce79;0x80e66b1560f4;0x2f372e31c7fc1;0xf5447d6dff91];[0x1;0x7ec14383dc2d7;0x12a512726ab25;0xae1d050de9f3b;0xd828a473fa3ae;0x189612d8f0412];[0x0;0x2361dfd4ef671;0xede1c5889e60d;0xaaa8aa99fdba1;0x19324f3035485;0x43cca7505600;0x1]]);
 ((V [0x9fa3123522dfa;0x6bd7ba45e5c38;0x2587ed9b3b408;0xf88fcc876f19f;0x16f8ad71f39a] [0x418952a260f7a;0x33785dcc9ae88;0x4c31cabeea9e8;0x8b7bed2b2b24d;0x515e45ac3fb2]),[[0xa6c23d7a308ea;0x5b3c0cf749afc;0xb94e6512212ea;0xc1c05752ff5c;0x7dbcd4e7b860];[0x2341d3eaf293a;0x537f425deafe4;0x393b0ada69ad;0x8c46ae6fa237b;0x4dee444cae6d];[0x1;0x52c5c55825e70;0xa0b08a688064c;0xd0f87a2c82160;0xec43135d005b;0x6ae2e0b1e001];[0x1;0x1ef4bf2b563a8;0x3055dfc13e84e;0x3ee36eb57cdc8;0xe9b2fce6b1a1a;0x2c30a2f4fd0c0];[0x1;0xfbde1c033f0dc;0x649d7a1c9b950;0x50ac55c0dd402;0x641660bc1fc7a;0xef219b8ebbd7];[0x0;0xdeefcae2b2ee;0xdf4dbbf2dd24c;0xb2d916c8e9e30;0x891edf0c91215;0xfb8f9538f8c7b]]);
 ((V [0x563653b4aab60;0x72862459a11bd;0xc53376b315f4f;0xf3f7f63ac87b7;0x3f34046a1285] [0x988e8a6629007;0x86f3d8a085715;0xac0f82bfde1d3;0xd2688cc420ae2;0x49711a05b389]),[[0xd422b380a5a56;0xf675fdad756c4;0xa8d86b8f840d2;0x2a13b99fa2ad6;0x1c32648c9e91];[0x9c574c03b2c26;0x6ebfa382d711a;0xd89b55df63303;0xa389fc7e54482;0xcea9d9c5fe0];[0x1;0x7f1567308ba9c;0x202f855dc1910;0xa83617b815b27;0x9d2e8852d76bb;0x15b5dc788f6d];[0x1;0xd09e9e92d1888;0x270b53c3df161;0x7fd557c3e5bc5;0x1d5060a8c330d;0x129a661b26025];[0x1;0x7dfbcff91a1dc;0x24cfa27e1343f;0xbc4d2c1310f99;0x141f2a3a8fca3;0xd4149ec79140];[0x0;0x51e854b146192;0xde71d580ebd15;0x16e27412f052a;0x5ea31f8c288d7;0x2640364edbbde]])]
 [[0x6351545fda039;0x946271f40eb6;0x192a6b9a7c87;0x5b0a7c61496d5;0x737b539eefdb];[0x9be4b66aa3fa9;0x2a9900066797a;0xc1f6e3db4c50d;0xf9f061d8222b3;0x228915780099];[0x1;0x7d73514555c00;0x51860f5b55e13;0xa1694390f3b43;0x11d3640c8c59f;0x25dce17400a2];[0x1;0xfbf8238d7bc82;0xd9193a544e651;0x7c14523e4df8b;0x7118e4b2d5126;0x14ab1c0bab1d5];[0x1;0x2382a3af9cf7f;0x662bf1d170f73;0x9c10127963b5b;0x28fc54cff6141;0xcd59e528baf8];[0x0;0xb481018a5bbb;0x412a446205a5f;0x9870b633ee503;0x1d6ed157aa31;0xddf62c998c94e]].
Definition wit_Test_64_21 : colwit ipt wit := mk_colwit (V [0x94aa31167271e;0x6d2f3d325f950;0x364951f28b08f;0x265bedd4e8153;0x4e7a3b232ff6] [0x8179f8d322c2a;0x2e39bef100f7c;0x103ed9bd69694;0x8ce12cd0d1e6e;0x7e1bae81a18f])
 [[0x82eac29eee000;0x71a88fe1a8529;0x8f5e9deacd369;0xb51253bfc462e;0x1d452e44c831];[0x93289a55a73f7;0x29da429664c41;0xcd5788b31a41d;0x26b2a880c060b;0x69ddcd2d6a9a];[0x1;0x509c80e1ec9fc;0xc9b3c7004b35e;0x83e27d284711c;0xb87b1bb9b4a8c;0xcd72acdc2a25];[0x1;0x80214c4a8c000;0x5de3a31eedeb1;0xbae180f8dded8;0xd6ec94c2221f6;0x35a416ab4685c];[0x1;0xf8ac37c000000;0x1f83b6bbbace8;0xfc1ebdf019671;0x199c071afbe7d;0x107b6c1152a3d];[0x0;0x23429448ce000;0x35f829776a991;0x81997e500756d;0xde311c83917c5;0x22e2e4be3784a]]
 [[[0x9d8b2cf7f839a;0x93ca78ed8a977;0x459dd0d64f4fc;0x68e6da4af2621;0x3b75cb4dcc51];[0x1;0x4eb9efadfc886;0xc4c6183bab2e;0x62852a799971e;0xa5fafb9e3a3f5;0x9aab0f47b4ab0;0x1];[0x1;0x7985f50ab321c;0xdcc33a453ab90;0xb601c447334a0;0x29b3a73f3cf4a;0x106fafbd9b351];[0x0;0xacdcfc5afcfba;0x37af5f84812d5;0x194d5fbecd528;0x9579e990c1d28;0x693f6779b6e87]];
 [[0xee3452466d557;0xc91d5c660fc41;0x436b0b75eea1d;0x549bddb6b4102;0x17516959eaec];[0x1;0xed2ba2f625589;0x2db9310149c4;0x872ec9342024d;0xeb109766838df;0xe71f6241811ab;0x1];[0x1;0x3a16e6a21229f;0x4afc233d4fe07;0xfc4ad43cd494c;0x54e884dd26cab;0x16a36d333727e];[0x0;0xc8302346c0e5a;0x76d66c18aea17;0x91a1d544bcbf;0x69c8dc4bd8091;0x1cb6cf1468943]];
 [[0x6c036fb4c0232;0x5273892421312;0x36ef186e4cc06;0xcf1cd4a23fab7;0x42403a9c527f];[0x1;0xef8a636bb71f4;0xc93ca8157ff66;0x5560f639e5a67;0x2da75ce0cfdf8;0x8bc1a2ba68a0c;0x1];[0x1;0xec2ab4f9a6efc;0x8a38c197c67d4;0x1a9fb082f83cb;0x45b1b91fd72df;0x108b794b3dbb3];[0x0;0x1b4515cf361d0;0x124678b4e0918;0x37c92e5f5f0d6;0x8301beaf4c08b;0x74bb6309fd769]];
 [[0xd76797f00587b;0xad7e760c63c73;0x71a04a8355101;0xe3a86a9a58967;0x5a848be6b0c0];[0x1;0x3d70ff179b471;0x2e555148ee86b;0xaa23616826252;0xee14875c7867b;0x56e13f6d3ba3d;0x1];[0x1;0x9a4c588317c97;0x24a07465d0611;0x4ea32c299eb8c;0x8d23c7ade764b;0xa3641d1fe3a2];[0x0;0xba91ec83ab0ae;0x49f4c8fb6cc6;0x6a29ce86b7c95;0xf3c24f64fbacb;0xae8ed0aa94b03]];
 [[0x52e4e0c64de82;0x7b23f0fa184cc;0x5f69b580590d;0xa08a8afa4e7b9;0x4364ad560e75];[0x1;0xd9be98b2c6ff4;0xa869af001c0af;0xc096ccea8d888;0x506c41f174646;0x931ee2358c042;0x1];[0x1;0x621e5cc47d2bc;0xde92cb7c9a9b3;0xb1933a5f836da;0xbc99aade2c4b4;0x1380f9b61d37e];[0x0;0xd0f1119c380f4;0xe28931d24af07;0x32d50e861cf33;0xcba2bb3801c2;0x8890847137720]];
 [[0x2a04b1b582680;0xc1803f99c45c8;0xb6ccdec37a399;0xf1ad82b2b7589;0x3811c1b2b385];[0x1;0xd827fd0e5b680;0xe3b8c12e0476b;0x3b365e2749a4a;0xd514d41057c68;0xaa819d92574fc;0x1];[0x1;0xd90bd0e1c000;0x377bfa33c295c;0xfab9f77689b3f;0x3314256ac7a0d;0x14b78268fea9e];[0x0;0x6d734f6a7fa00;0x400b45f026aeb;0x145c9d3295965;0x8f51f8235d50b;0x658da373f5a7f]];
 [[0xf4ca29902aeed;0xc4c256343f4f5;0xd49752f2d8465;0xe0206be79605b;0x4d308c68a025];[0x1;0xca86bbbc1f826;0x577274308de60;0x5b02a717ce092;0x151da05e5f09c;0x713ce8f8f360f;0x1];[0x1;0x199556547ff47;0xdc05db55ffd3b;0x5f341e5f9931f;0x5846d482a28fb;0x135a8846e9beb];[0x0;0x308e62d469793;0xa6aaed825e16a;0x4fc85ae5eea5f;0x22e9b896bfb8e;0x8f7f024887b11]];
 [[0x9198a6e7223a5;0xb85a4caa9f327;0x99069fdf83911;0x6da8705eb5bba;0x23edef1eaf5];[0x1;0x61997529fb820;0x7560b62376517;0xa21d0c01c2706;0xafa7717615886;0x1a38318070138;0x2];[0x1;0x66c178578fb57;0x8f67f9e1c31c7;0xf8e999b6afdbf;0x6a43e15a84ad0;0x1f7982afb64ce];[0x1;0x492077d322e2;0x2ad0af5639e6f;0xea9a9360853e1;0x11ec41e7362a3;0xa6811de61b36]];
 [[0xdc4fa01fda62e;0x5bb29f11f92ff;0x940fb521dc3a4;0x78869ba91debd;0x43877e57b2db];[0x1;0x8d9c9826bfa1a;0x1803ff3d5485a;0x78ee5d5a4c030;0x6d57d21a879ca;0x8761401b69482;0x1];[0x1;0xb556b7dacc87c;0x73dd00ef016ab;0x926a5cc02c255;0x3784cb055cff1;0x1a77a4fe839fc];[0x0;0xe7438fa7d7aa6;0xef5409a69653e;0x650f5cea10b8c;0xf76112f1ad67e;0x79ce6a5b4a83d]];
 [[0x7e631d534a74e;0xc3bb032344ee7;0xdfa1a85ca888b;0xf77288ff7ffb3;0x3a90e1bd3ef0];[0x1;0x8f01740cfb142;0xed76412ce5aec;0xa62514aeea277;0x8aa7705023094;0xa0654b491f527;0x1];[0x1;0x7715ed5844fc;0x5f54b1ac84963;0xd17a1cf7c736d;0x473e7ee7dbf6b;0x172cc74e0d3fd];[0x0;0xf57f5a14cfc8e;0x6fd1bea83ee77;0x51749a58a077c;0x2d3e8aaba122b;0x6272680f009ed]];
 [[0x2909a726820c6;0x3fb6143586c06;0x524b56f2274bd;0x7aa11e7867dca;0x75dac8bb82];[0x1;0xc9a73bae62e8a;0xa03059b52f5a5;0x19727d3f16b1a;0x3b93095c223a4;0xf05877206bec;0x2];[0x1;0x5fec96bd7a99c;0xb2677d0125720;0x4deb72c4cfb94;0xcf8d730bccd66;0x226b342f1762e];[0x1;0x44d3ed34bc294;0xe87a99dcceeb5;0x4c5fb7bff9345;0xa4603f760cc08;0x105fc5d8d887b]];
 [[0x93d8dbf579bf9;0xd25da18b62f4b;0xd65f09ca88e5d;0x4d26330cb70de;0x48373d2bec0e];[0x1;0xb7195784790d6;0xd4ff0632cec0;0xd2494b3537b88;0x5312fbe8c256d;0x8abb4f1c3b97c;0x1];[0x1;0x48587833c4bff;0x1e5dc5c541125;0xdbb13834c483d;0x928b993a6fb4f;0x2315e6868973a];[0x0;0x596cba8d9c192;0xefcfcfd4c5ebf;0x6e6e6e2c8be5c;0x6c4f58d3d9a60;0x9012036786fc0]];
 [[0xd93b4b1476eb2;0x82ae409c02dec;0xb4647aae5e210;0xdf2b94df62f4d;0x716bbc989b0f];[0x1;0x6214954e7c67a;0xbf29763608c9f;0xd25a348fee5f1;0x334c78affbfa5;0x334dd14f89938;0x1];[0x1;0x8ba1bd6ca2cfc;0xcdaeafaa22a0;0xeb908776f9f57;0x45b28c75f924d;0x160996269754d];[0x0;0xe3291d640e190;0x686569ca5923c;0x56903aa15a4a;0x5556a7d180975;0xe2f2c2a897a1b]];
 [[0xebf73d1b36ef6;0x427d5c26b86c3;0x78fdcde7b4f9c;0x8c63b0c6a738f;0x34cefaac9142];[0x1;0x5b2b1b7da83d4;0xab3a14dcf2256;0x5fb2589b1d376;0xcc581a55bf95d;0xaba632c634b7f;0x1];[0x1;0x97a18d26c4a5c;0x9c4fc1096a4b9;0xf70f56c77196d;0x1e8869363c93d;0xe478b190825c];[0x0;0xea13e5b4dc590;0x42c183cdb9516;0xe6616e1efe165;0x9a37dd9d07e11;0x64cc5a52af0a9]];
 [[0x28d8ea81629d8;0xbd5e2e8027f1;0xd554e514ed819;0xb1ab1e76638a1;0x18430a1c0f66];[0x1;0x23c637eef71e8;0x4e430b145a819;0xda166919be362;0x1573d75539939;0xe9ec04a445206;0x1];[0x1;0x9b62b4fc105c0;0x6d44fb4e6ff9e;0xeb388efb22cd4;0xff408204ec77d;0x19abf604a3d57];[0x0;0xdab17eef10458;0xe798653a9d41;0xf3dbf36644e7;0x41337d36e2eb8;0x1fed43f97edb0]]]
 (V [0xb107e821fec5f;0x78d6e25c438a3;0x575b9c2ceeee2;0x893b55fb0b846;0x4cbcbee4f1f3] [0x3febbb8fc84c1;0x40ed0e5f8b797;0x49cd8be4e981;0x1f2e9ef95d415;0x5dcfedb51bb7]) [[0x9e841086bc8d2;0x80d2728f9c84a;0x7ec69222c784a;0x5191e09452964;0x4570e2214ec6];[0x1;0xfd86183929efe;0xad55817ab5d73;0x621140410f859;0xb984707b03cbe;0x7f663adea8f1a;0x1];[0x1;0xab03088ccec7c;0x70092946021df;0xad261733a54fc;0x1f2adf0004794;0x1aaf7b79ce370];[0x0;0x336b0c3660b10;0xbc14e3366b7d0;0xc85804119415d;0xeb9b74f391cfd;0x777903bf35e6b]]
 [((V [0x101dae498751;0xe841ff0da0c9d;0x2a6cded00b23d;0xe826af54ce37c;0x50fa128f2bf] [0x469617abfbd32;0xbc4d3edba916a;0x2d1d462f7e7cd;0x71988a72b84c5;0x59bf899903a1]),[[0x2dbca3f18b0d3;0x1dd79f5f4bbc2;0x86963d9d902db;0xf01366fbd3b1c;0x222ac58fca02];[0xe5b2b513ff5e6;0xb68a7a0e004fc;0xf82c00536cbe2;0x51063b4c6937f;0x2509693871e];[0x0;0x21075c1644411;0xf980a6881a424;0x71b575ab1dbca;0x9417da27c771b;0x29600bdaae4c];[0x1;0x2c654ae2852fa;0x82b031b3cd6fc;0xdd7c6d63e9135;0x3ec3565f66273;0xdbce5f2228bd];[0x1;0x1f1defb1cf0c7;0x14304e8470b2c;0x9c5f166ca76b5;0x986b32c7029ff;0x133f376a672b2];[0x0;0xe115d65ae8ddd;0xda8979eb23deb;0x5791b7275bcc8;0xab89770c0a52e;0x30b8678417172]]);
 ((V [0x8a4882d4b990a;0x6d71107b46533;0x7f604dcad2dc8;0xfd2ed77ea2124;0x23104cfcc2a3] [0xfcd60b100e4ea;0xe1def099f0c0b;0x612917e245fce;0x652e1121e31a9;0x3c42029985f0]),[[0x35a38cb50a45;0x1a40ea5292b1e;0x3c2fc2f36b7e3;0xc86d051a83bfa;0x1e5eeeff00cc];[0x4c081584a8703;0xe572edf8add6c;0x532ea99521111;0xd38b4543e0521;0x755340d8a8d5];[0x1;0xe4a3e2bc3f18f;0xe0600f739de4;0xee1d15fd9c0d0;0xb434d372d9ddc;0xea7347318e32];[0x1;0xfe758115404cc;0x63fc32357d4c6;0xc4cb66b030559;0x842469de088a5;0x3955c9c1c4299];[0x1;0x74dfa7b597917;0xe71b00e59b348;0xf606af5bf8440;0x294038874b553;0x532a582d0320];[0x0;0xaa5ecabcd9a78;0xe299f236b907a;0xee958ca79a17e;0xe182628a8f29f;0x2b71b4db12df7]]);
 ((V [0xb8b9fc8b16315;0x7f1a2ca138fd5;0x9b6fd4ad58298;0xcf2c49c65a0fd;0x1fdff3dbec3a] [0x6f506953a58d1;0x1ddca34e9f99a;0x208d9056fdc47;0xcaae72a8582b5;0x3690da117f0e]),[[0x21de63db08600;0x14a0f6032d44d;0x4a47de240c58b;0x6bbe34cd5a3d;0x7f64fc8053c3];[0x32446b69c9d58;0x552daaeb84db8;0x860f3a5059aa3;0x3d63bbf931f5;0x5d4ba829c4f];[0x1;0x7814af96daa5c;0x6145e34981f7c;0x47192df8faa12;0x95f54399940e8;0x20e88d790ad];[0x1;0x7d43feb318800;0x83696ea22d318;0xc1c94ada9b1b3;0xd95b58bb5df94;0xab0a4d063710];[0x1;0xde718ac9c0000;0x90771d892b385;0x6d821ff69ecf7;0xe684ed863fc29;0x4d3666efc231];[0x0;0x2548b4659e400;0x5492d6776314;0x6d9be8873332e;0x58e54139ecbd6;0xf898b4fb35a71]]);
 ((V [0x20426762245a8;0xcf8f2d1b8f2e0;0xcb4f545d9af9a;0x898e7e5bcae34;0x57e6eeb1481f] [0xa527a63132ff0;0x6b95e4812cec5;0x32a851905bb18;0x37150c11cc6e9;0x2acd4262674]),[[0x3e5ed200464fa;0x27f690bae0712;0x9e85410dfc261;0xc953e44942707;0x25bf23299ce5];[0x4e6d5f50710f9;0xc4fc0ca97beea;0x340dcd9e0cb7e;0x5d2fd93ee5f9e;0x3f587c5bba62];[0x1;0x8cae86c8fc5f7;0xde99bc45329ff;0x9a28abcaa2a34;0xa251089e9e905;0x76c0f6c36b76];[0x1;0xb301df488058c;0xa3dba3a3fade0;0x6e83663e22b7;0x2f9e8095b497a;0x25be435cec2d0];[0x1;0x3b4c48ae68e9c;0x988765919aa85;0x9929303a0774a;0x6a4fdfd8c7244;0x1242c0f13389c];[0x0;0xd6d1400be194c;0x579dd505e8345;0x81e3feade82b8;0xed527bf9b4fae;0x45aa27d9dd829]])]
 [[0xb96a757d26ab8;0x7af6943bb7815;0xb4390cddc1bcd;0xae55dbaa2198b;0x40816792377];[0xb6af1ff06946e;0x462725f271912;0xa1bf9c197c96c;0xfcec329af3a4b;0x14f5e8b36a9];[0x0;0x35a50535f9240;0xb70ad03414e7;0xc4433ed9f0ab1;0x503a8e0ad0e4f;0x39bed0061aee];[0x1;0xa65ce18cb0700;0x8557e987c0335;0xf449520e187c3;0x218f8a20ab106;0x107b11375e7a6];[0x1;0x40c835424a7c0;0x6cc56345ce408;0xd63460d100fac;0x3525b60b248bb;0x257978250d0cb];[0x0;0x8e5cc3b89b4e8;0x5c8bc0819634d;0x786e18177f32a;0x483536f4a6a82;0x415731532585]].
Definition wit_Test_64_22 : colwit ipt wit := mk_colwit (V [0xfcf3581aa9587;0xce36020fc3ddd;0x55d5dbaf273e2;0x1c4ae24c5adb7;0x6e449f5f16fd] [0x450ce074ebef;0x474f8d15f62c0;0xa8aa638f567fc;0x446757533aefb;0xf9c50dc0a05])
 [[0x103970014790f;0x6d086d496d2d0;0x60db3e870ad1e;0xdd6274b82632b;0x34d956888b5a];[0xd39a58577d63f;0xf22d66cb620ab;0xd2ecf204d1367;0x9f9343f48dac8;0x761e3f1ac0c];[0x0;0xd6dcc1b00044;0x482aa60ef855f;0x8a8721bd9c459;0x9c54932d3464a;0x6977a0d72049];[0x1;0xcaa676cf555d0;0x32b5e474d9cdc;0xc596e7160aaf1;0x1ef39ab228e28;0x113053ff65f0b];[0x1;0x3f890437c664f;0x9662cd0f92984;0x8eb17ee2d526e;0xf6ee93d721ca4;0x2b6efca53c67d];[0x0;0x238ddd50f9878;0x124f9fb865a54;0xd06a961f1b2c8;0x3f0daa188a55b;0x679464383f167]]
 [[[0xbf3c0364cb82e;0xf733a862cb2bd;0xf6c1cc6168041;0x968180dda98d2;0x306a60f8f979];[0x1;0xef9556608e594;0x69bb4e577c62d;0x15530d2231e19;0xcb77862750e4b;0xaa9829f754f59;0x1];[0x1;0xb8203e404d07c;0x4ef157800281d;0x92ac0d246c84d;0x64d469a1c152a;0x268f528764d7c];[0x0;0xc8080a52ea50a;0x2eb61edfb4c54;0xae304b3bd0b44;0xdf8f3027109d7;0x584aeea2a0f90]];
 [[0xb22076d75980d;0x116c7f4af84b7;0x810396fdd8699;0xb68db63b85101;0x16a33b920873];[0x1;0x88711656125d4;0x6f73f7f59e22d;0xda28a6aad4238;0x7600cbac694a4;0xda42f408b079a;0x1];[0x1;0xe012a2df31207;0x58262ea865fa3;0xae0017243b175;0x94e61340efc21;0x1b8978098f799];[0x0;0x4e81ae457daea;0x9946b519d810c;0xd83aaf4d31c8d;0x5d8ba50711777;0x1d7431a7adafd]];
 [[0x7fc934585aa7f;0x76c8ef34e5afb;0x6e35f67094f22;0x935a5393ea16b;0x5697f5daee32];[0x1;0x762c6c4ef754d;0x86b3c0a162b6e;0x4561abd299f2f;0xad6de3a880710;0x52c415bcd263d;0x1];[0x1;0x54b5a87bd502f;0xf93dd1a2b49b3;0xa39b25c6fa4a5;0xadbf0a46836b4;0x1bc67a7f6feec];[0x0;0x3a9e729d942b;0x95af45e90f6d8;0xa72f9f663718e;0x2f187a4eb5af;0x9a4ccf237b3ed]];
 [[0x87cfb504a4d3b;0x88fa98d723ad2;0x2fdb4c9bf9c5e;0x93139883e5492;0x46cc8e353921];[0x1;0x9694e111dd0c5;0xd270ec8c07315;0xddd1512791de4;0xf573b581cfdf;0x746321b70db24;0x1];[0x1;0x7f1e4e9e75417;0xf4267dee4ead9;0x6071e4ea0c73a;0xf45534e13ffbf;0x252774ba70e1a];[0x0;0xf1728a40715f3;0x10068af86a4c2;0x8b94395d21f2a;0xe82182d08d445;0x7f7279710259b]];
 [[0xcb9943fb4d427;0xdd974a075aab1;0x475d5c2fadd27;0xaf3a18e354fb8;0x324531aaf38b];[0x1;0x8f1416fb88b21;0x18881a1f9f7e5;0x293c340a8aa56;0x816ac854ccfd1;0xa24649f7c29e0;0x1];[0x1;0x1b13a28077a3f;0xab898a4ad0ebd;0xfd4280f419882;0x1e9f3f4bedbbb;0x2038b2066e0f1];[0x0;0x1e5a395532f9d;0x184fd2f0131aa;0xc61adf1cef341;0xa8412347aab0f;0x56eacd02adf7b]];
 [[0xf1a44fb7c4ab7;0x70a0e3fc5a79f;0xa794b506e846a;0xabd4178e23fb7;0x56cfc41d1a0f];[0x1;0x49fc6af1a40db;0x3c104897e99df;0xb7e184a50c318;0x827a7184ebb4c;0x52fd7c54e231d;0x1];[0x1;0x36d12d480935f;0x6e8f4f3cfb53d;0x386b4ec7cef3c;0x62ab7091dc2e3;0x1cba820dc4f0c];[0x0;0xd468a32071274;0x5bd393fd72607;0x213552ac6affa;0x6fe979d233ee3;0x9b37a99813306]];
 [[0x7ed617eefdc82;0x1853a588494b2;0x7a7097c7cdcb0;0x2911bb457539e;0x56cc86174169];[0x1;0xabd7da4c784e4;0xa68eaaf2e428a;0x6ac2877a1ab1e;0x2ae4122f72493;0x50ec6302e9276;0x1];[0x1;0xfc058ad585abc;0xb76339c520116;0x7a2136c5932a9;0x5bbd7bb5e296f;0x1ce18bf6e16ce];[0x0;0x14762a0dd4940;0xab7f972a81041;0xef5de50a12e97;0x83f91d46b974f;0xa6a1f63f53b7b]];
 [[0x935bf17088fc0;0x3ce85406b0bfe;0x7049a242486d8;0x934f5a2102558;0x6f20c923234];[0x1;0x700a55bc55340;0xaf190f2a227a8;0x1f266ca1472c3;0xef5c57bb80eda;0x32607a694b5a;0x2];[0x1;0x93b47307af000;0x653ea5190aac7;0x43a3cd668cdb5;0xd2e5fe35ce024;0x1c05d3eb75ae4];[0x0;0xf28410337a0c0;0xd2b3ea2cad35c;0x3ee410ec2a0b8;0xcdc5e8d7446ae;0xbf59da90f267]];
 [[0xf6a88fd26c3f4;0x713cee8de08d3;0x80bf003525fda;0x63b2dcf10cacd;0x7ea85355c7ce];[0x1;0x803e73816f9ec;0xecdfa78baddbd;0xd6b51d8231c2a;0x91a08f5e79cae;0x6df155b61c70;0x1];[0x1;0x81f83d548aa70;0xbfd271167dc31;0x4580deb5ba3bd;0xe31be76fe802b;0x11205baeae279];[0x0;0x2c90b7c2af7a4;0x3bf180ad5469d;0x4e9ecd5d6da92;0x376fdef55d358;0xfc3ac59d144d4]];
 [[0xf030b1645e3ce;0x4b9e75f9e3a88;0xad194fe6e21c6;0xec6bd67c928a;0xc142346ec05];[0x1;0x34e76a173ddba;0xdbe7239a0e845;0xaf02d05803f12;0xe29eaa8647ce1;0xf11dc5f0ae87d;0x1];[0x1;0x6c9b964ebc6fc;0x3e59f729214e2;0x81cdc651355fc;0x78bb663a4d6bc;0x158f518040b04];[0x0;0xb5ef7647cf9de;0xeb97202c40d7d;0x98178d9ad6829;0xd6e345c9fbb4;0x9313a05dc4c4]];
 [[0x32036b2ec3b79;0xc5999e3500dc9;0x15908fab69168;0x1867c72fe4494;0x6cc3bdc5c21c];[0x1;0x2e1ee1118c76b;0xab9936edf9d69;0xc76e6802493eb;0xfbb7bb5f68cae;0x24ac69f28810a;0x1];[0x1;0xfe2b9adef14ff;0x15bad6a265a6e;0x1bf2041033638;0x5eb2563b7adfe;0xde5c405b5920];[0x0;0xda33218bb1eef;0x5d012442d9d6d;0x79a976ce63147;0x100008488176a;0xd2be1381f2835]];
 [[0x2067ea16d90b2;0xebe4ccd424187;0x363af6a6eec0b;0x703e0c98ee7e1;0x39d2daf90923];[0x1;0x2c7ee34d5f8ea;0xdcbb37a0a05a4;0x5277d21c8a2eb;0x67cd368ea5c34;0x930e1732105d2;0x1];[0x1;0x1dbca0dbc64fc;0xe6330a68f9cd4;0x38cb750a456c5;0x161123dad358c;0x18eebb9f76c35];[0x0;0x5cfb3872908ac;0x3eda5fa5799ef;0x4f6105c9b1d77;0xee08c0ee14832;0x6b23751c7cc22]];
 [[0x99551153733b6;0x1a4c734ab1dc0;0xb5efc7285a299;0x1254ed9e30c65;0x62197df745a9];[0x1;0xdfc01cd987490;0xd46429938646d;0xc75c8bf66fd40;0xdf74da968abf5;0x40ae4a8dd2350;0x1];[0x1;0xea8c0e16ec95c;0x12371e89c334e;0x56dff6674bd8d;0xc47f9d684cb12;0x19f81b6c953ab];[0x0;0xcc456e96ce838;0xa1d259dcf3095;0xececd238e4d6d;0x8a2f01b7607cb;0xba6f746579231]];
 [[0x6d8d2996ab138;0xbb2eb31910abe;0x1b63e84c5baf;0x483219c81246f;0x1f5ccbd865d5];[0x1;0x290ae16c42b18;0x727b4a31f5d7a;0x3d96fd9f9c463;0x6843dd484e1f3;0xc4f1fde3cc199;0x1];[0x1;0x2f54657478fc0;0x7f725e2c879bf;0x1e71d0c4f68ad;0x135a98dba9021;0x1bfea869e640b];[0x0;0xd080633358298;0xc88116f1cf28d;0x322b34f02f94;0x2097c1bd5d89c;0x34a6c3e4332c4]];
 [[0x4acde6a611e92;0x5b658d0e7e018;0x6cc8dbdd7abe;0x1252e118598d1;0x259febd16ced];[0x1;0xc8d0dceb688b2;0x7b544d41f768;0xa98d07a937b70;0x46f4272fe9e11;0xc2f62aec984f1;0x1];[0x1;0xb0a4fd5bffd7c;0x449253d03f647;0xe64144b6977ff;0x76b05c64172db;0x179631e1337df];[0x0;0x910a79aa14ee4;0x921df2bc2f2d0;0x93894fb5b467a;0x60df6bce6cfd8;0x46637a5ce788f]]]
 (V [0xbce2552dc62e6;0xec91d08dbe73b;0xc93a9b9f87d7d;0x1b53d27c62e19;0x409e3d26cd60] [0xeda6eb3dd23b3;0xb46e802c516ea;0x15cb151957033;0x57de02bcf5649;0x387b489c3a12]) [[0x8e181a222ed14;0x37f5f437abbaa;0x14f69cc1670b5;0xb566174d57ae0;0xc5ddaaf6d7c];[0x1;0xa324096370f34;0x472d3fdf8849a;0x83a8844ba4224;0xcfe0f7089bbe6;0xf24b222ea9498;0x1];[0x1;0x851ffc48ef170;0xf7e958bde9a44;0xe7d8071c66810;0x62424fbf7e964;0x1a709a6ff894f];[0x0;0xce4a47e1ba13c;0x273b0c51c298;0x1f23a42a9495d;0x328e20fded8f5;0xac757bfb1161]]
 [((V [0x3c3597caf8d93;0xbf11a97c85751;0xec84dff10dd9d;0x851b29dca67a7;0x5a31b34f6531] [0x81576eaf6a2ca;0x482c9ac5c3fa7;0x628e261fa4814;0x441124b3e24dc;0x4083f4ef997b]),[[0x72a86046b6f37;0x988117fc4b30f;0xf51782cd94c88;0x4c919ad25517d;0x61244ff45e48];[0x566250265aae;0x50d28475a3518;0x88e39aa8d70f9;0xddc908ac846e0;0x28fa11e63d00];[0x1;0x455bae9efe41c;0x833f5ff530aa2;0xdacc2dea0b916;0x9377f34ac4d14;0x31552306979f];[0x1;0xf9a8c1203e8f6;0xb5c9665ba54;0xd46570a32c005;0x2f0235658fa0c;0x1a021856ff746];[0x1;0x4e13882c5f45f;0x14df964773fc6;0x40ba12c6a79f4;0x63e4e582f9ad5;0x16d2347be7597];[0x0;0x434b3e1fe08fc;0xad305ce73b166;0x9a62e6dc760e4;0x39be430281c4a;0xb8046d26aaae2]]);
 ((V [0xb3da601dc20c5;0x52d52121c15a4;0xc67cf235764ca;0x14f651ec90531;0x12922b35c733] [0xee480adc11cda;0xf92208a57269e;0x6c69e4b512a75;0x9d7c5df9406f3;0x7f51ea1662e3]),[[0x160e858253340;0x93ac89857d6b0;0x20ea5a00b4d20;0xc3d0a310d8665;0x15ac111c76e2];[0x9b766fab7e10b;0xa821c99ae29a0;0x9aced41fba49b;0x6a011aeef17ce;0x7b828a4de487];[0x1;0xa55b7011d447;0x2e92624dcb2b0;0xc044541d0482f;0x76a460cb0c19f;0xb7771d27dec7];[0x1;0xbde068934f00;0xd3fbf8c36cf6b;0xa820b087a7f0e;0xdddb1ee147e99;0x3cf367d92ba40];[0x1;0xcff2b07e87000;0xa11e5e6a8c23d;0xc37be9a9b94a7;0xbec1e76f34ebe;0x18a3fc6bdcd60];[0x0;0x484bdea99d0c0;0xb097fac63bb5e;0x2133e8e7e9750;0xa862ca02e3fe6;0x157a2eae58e54]]);
 ((V [0x498eed63de641;0xd63016a579a10;0x248b4eca488c8;0xba617c5e13595;0x5a23b778910c] [0x15bf0c27f83de;0x3fd2fa429bd37;0xa25bcd4c079b7;0x3043967dd76ef;0x7ffab4b1029e]),[[0xbc871fe87a3d2;0x7b388109c1f9;0x4caba9ec8b960;0x6065fcc22ee64;0x59b7e8de063d];[0x439294fd566ef;0x84c99912349b0;0xc665aa8dfc728;0xb29068b7dff1d;0x19c5c8aeb6f3];[0x1;0xb4b3124884817;0x3a0a15d023e22;0x3e3ad738bd613;0x62453a168f0bb;0x30d9ce4bac9c];[0x1;0xf2bd3343f95d8;0xd96ed54059527;0x28ef2a13ebf0c;0xf9a017bf629cd;0xe826ed152f0f];[0x1;0xcd22fda2e07c;0x67d5cef5e9049;0xf0435364ff054;0x3f52a6abaf0c5;0xbfad53b5fbb8];[0x0;0x4ce82859bc4da;0xc809b2da54bd6;0xfb5dd37187513;0x71efef6ad53df;0x95ff1bf3f18ea]]);
 ((V [0x31e5d49d33ab3;0x77d030ea6ee3c;0x6933d28a43e34;0x71585d7be287c;0x5592328a9637] [0xf9b50ed903003;0xfd69c8f0a8f41;0xae9ba443c479e;0x94311fc0fa4d9;0x97997ddcb02]),[[0xddf167333517b;0x8602f5c056de2;0xeb20bd85290fa;0x4c97f810dfcfa;0x5495e2bec89c];[0x8c626349f76bb;0xea2f029b8932b;0xd769e6903d56f;0xfcb8719eda345;0x19b4e4a0a692];[0x0;0xc12568dc4d951;0x41dc2b22b6554;0x4c9c14a3d9af4;0x6fef2221a82e8;0xc107ab79bbe];[0x1;0x7be1ac065886c;0x819271ded0771;0x1f9ab65d5af8c;0xb508050529dd0;0xf11895841866];[0x1;0xc786130e45697;0x396e224d17efe;0x19886f541bbb2;0xcb082c2730116;0x1dbcdd9d9937e];[0x0;0xf4e7c154e0335;0x221f348f8e8a8;0x99fbcccc0d897;0xbecd2587bd2a5;0x9d76e7a32e864]])]
 [[0x62cad01e34635;0x16e6022adce24;0xf6d03126c8ad4;0xfaf98ac8b32d7;0x4cf79c002bd0];[0xaf330a1d3f982;0xe7f98cdde56e;0x87c2c9c1cb8f5;0x4d82750bc5653;0x5be65a18a7d2];[0x1;0x70bfd2e120187;0x52618890674d4;0x3fc50bf14a78e;0x6e9913f646141;0x7e97e215e007];[0x1;0xddb09e2cce062;0x860d092bc598;0x77aa811e64998;0x1ebb1b087209;0x31c010fde0936];[0x1;0xf731356211ab7;0xd24f629711bf;0x143f769fb5c5e;0xc7f06a2aec8de;0x1abeb267551c9];[0x0;0xbf4e9e7845d00;0xe1b55568e9173;0xa1b8afe9d3465;0x8ac0edf3e18;0x8fe283cb1c950]].
Definition wit_Test_64_23 : colwit ipt wit := mk_colwit (V [0xa4d60ea6e291e;0x9dd951ebda874;0xc28261909eef3;0xe2b2748e619a8;0x463578309bac] [0x983daca6eafba;0x6c102bc1f1ac8;0x4f5a254ed15d6;0x7d95c936aa173;0x7326cfd58f9e])
 [[0x5075ab0d7bd0e;0x5f8c4fb21dd4c;0x5785f415d0d25;0x9a2135095c684;0x490ede3e54a8];[0x3e77d0dde0ee;0x3116ff3047b2c;0x5f975553aa04b;0xefa5f0bad4db4;0x31ca33bedac8];[0x1;0x397d7d3852f0;0x81e4180b856ef;0x7158e9deb7c71;0x6edeaafe5d7b9;0x41979b3b7247];[0x1;0x15583329ea7c0;0x688c60cc0c6d1;0x6624cdf04eaf8;0x9a5ccf66b26d0;0x1a71e181b811f];[0x1;0x73fedf65fa3fc;0xa1da293fbb41e;0x3c932f0b8bbd;0x8ced1e7f02c;0x16a8c8237f6c2];[0x0;0xa513e2d177da2;0xc86d309161c85;0x6a51475fe67c5;0xb344ac2256a60;0x79b94f4b2bfc7]]
 [[[0x8389bff844383;0x9e053d040b79b;0x52ffee20da4d7;0x8cddd8ae312b5;0x107f7f8bb70b];[0x1;0x54f6c076da26f;0x75d6912430c98;0xe4cede2b481a1;0x74d939084ea38;0xedeb7059a2d38;0x1];[0x1;0x7571fdc0d9fa7;0xe682337b9f1f3;0xdf4807e0bf4f3;0x339686b08139b;0x16f52e96a31de];[0x0;0x1d115d6238923;0xb3905f8765e7b;0x926134bdd7a7b;0xd8f8f317d77d6;0x4e8db45132a5]];
 [[0x89de1b21cfa6;0xe7f57d8608335;0x9703f448d5f6a;0xe2d1aa0a0ec0e;0x67374ba4e2f4];[0x1;0x8e8621b49717e;0x36c9a848e4ea;0xed9fe1137c65a;0xb64a8c627fb50;0x39932a6099b55;0x1];[0x1;0x899a828fc9b1c;0x60f22b807297;0x471129c8c76a8;0x477b209b009b5;0x150eccbe32b72];[0x0;0x43dd3c1a44dd6;0xba5b151e29669;0x218e4c4a9ff53;0x74d060ba6eea7;0xbdf63cbf429f8]];
 [[0x7e450a1330845;0x80001150a8ef0;0x531f04636907b;0x8333f1f786d92;0x6e587c66d63a];[0x1;0x81f051af6d7b1;0xbf3b4ba7f2033;0x7069178f8de2f;0xdced52083c416;0x36057c3f7c7b2;0x1];[0x1;0x91303a682cd17;0xa3ee02c875111;0xe045ee03f57aa;0xa3b67b390b370;0x1c04dc595f3df];[0x0;0x87613288353d5;0x7deb215a37dfa;0x3d56c47f6ab6;0xf35594f7a1d5c;0xd85a4c6684c4c]];
 [[0x3485f14f5820f;0x40f55b31eff75;0x2c53400001dd4;0xe1beed2019334;0x450e056408b7];[0x1;0x9a60bbda86683;0x3723d4775951e;0x173e428e3544b;0xb38e93d9bfc59;0x8d054dd3e13c6;0x1];[0x1;0x50290d806f84f;0xf62639e023013;0xfb09f04b7cc1f;0xb86f331b97e4c;0x1ba3f9eadf862];[0x0;0x3aff7c02e0cb0;0xd27d8e5df8c12;0xd04d67f014f44;0x530b2aaf225d7;0x7e555862d466c]];
 [[0xd0592281cdb2a;0x9868a818afae6;0x3223fef7d865d;0xa7dae57d3e77a;0x7e11f692320d];[0x1;0x9621b900ceeec;0xae8bbec0a6420;0x9d732edffee64;0x9fd60d4b77468;0xc31ec6a3309e;0x1];[0x1;0x1b9391b01f3dc;0x23083dd8693b4;0xa9b403a27b9a8;0xd16382a7c593b;0x16549e554af24];[0x0;0x76d283f85b12a;0x25d0809ea650d;0xf462727fe010;0x33cb9c21f7345;0xe60510f83b86a]];
 [[0x1b4eefca3e0f2;0x68f7029b5e1d8;0x271858224dca1;0xa200a6eec723c;0x79626dab65d2];[0x1;0x817354d59ac9c;0x13aff6a9b603c;0xd75267a9e0792;0xac6fedad4b4e1;0x192ad97b4362a;0x1];[0x1;0xc7ab934176bfc;0xdd4edbdb09407;0xef385eaf6f94f;0x442a9964e81f6;0x1857f32b03658];[0x0;0xb1ae1b689634;0x438ad47f87bdc;0xcb5e4ee059b3;0x1cc2de1525a0;0xe14d75c5686e9]];
 [[0x7ef9780840fed;0x3bcba887f9e4d;0x79f0a81d60ac8;0xfd26ec6010b08;0x5b2c0314c69f];[0x1;0x225d4b9b6b0d1;0x86651026753de;0xbacf4778b868a;0xd40f6ff83925b;0x543e74f537e2c;0x1];[0x1;0x437ea22f84547;0x76cffd0b25bb3;0xc9ec8acf1cce1;0xc5083c0de9749;0x1b041e7b9ac2b];[0x0;0x7308b6ed6c3f6;0xc6b8a8570d5e8;0x93339787864ad;0xd6bd6d9c66e15;0xab2b4897da04c]];
 [[0x7aa73d92d0d34;0x2cd9eb1ca0439;0xfe2e8ab53a7a0;0x9a2252171fee3;0x4679a59c36ac];[0x1;0xb47287f1cd5a0;0xc7899cae92b25;0xde5884423d68b;0x7fac2ca184d28;0x8d36f18d96a69;0x1];[0x1;0x1464d88475870;0xab3760fb88401;0xbebb0aaac7f8a;0x47732e6f93c7c;0x1921f80280ffe];[0x0;0x27a9125e3e908;0x4b204227314fc;0xd3456831d8046;0xe45545a024a43;0x87db9b4dc3fbd]];
 [[0x804bd3265b1c7;0x1ade6ac80c16d;0xe6f196332c5a7;0x3ef8ff71cfeeb;0x48e77edd3990];[0x1;0xd3ea8f33fb459;0x3f2c7e65fa1e3;0x950c0bf20d20d;0xd0d861d482399;0x7c6f9f951e8ea;0x1];[0x1;0x9b848210b937f;0x2a93533c38bad;0x50a0f4961947b;0xc9078aba2b89;0xfb95ce0d83f9];[0x0;0x305ece1ac0fce;0x4f9bcc4c9f3ca;0x736ba6e120063;0x4cacf19ceab90;0x7e02690bd068a]];
 [[0x396f0d8efe9bf;0xeb6c2c3137fa5;0x1a8169134730e;0x95abd488013b4;0x6a3c99ccc836];[0x1;0xdbf1fcc456542;0x7c15afc493abe;0x216ff1f7ad70b;0x1b001d7e97493;0x334fea05d914b;0x1];[0x1;0xd0bbaf3b0c6af;0x9ad7a23669b1e;0x2b9d8466575a2;0x3dc96c7005867;0x1587ff70da885];[0x0;0xa86c08d5dc9c9;0x514a091bcc1b5;0xf4de1dbac5080;0xfd93cb31b77b5;0xbc08a3d031e6f]];
 [[0xf8796f4c33764;0x4129bef0bd633;0x567f9ac66061d;0xcbf2158e5995e;0x27221323db9d];[0x1;0xce3f23a7f92a0;0x3d8fb025742c7;0x427cca613fd9c;0x19a033808534a;0xc193e3ef8a00b;0x1];[0x1;0xdcbba6b5963f0;0x969a7dfaead3c;0x7e8debf69dfb4;0x23c6917545226;0x229ca8316b027];[0x0;0x78e89215eb7bc;0xdf9fdd57b2101;0x887287a6b8bb9;0x3b4b81210e3a3;0x351010c46167d]];
 [[0x922f0cd44a1a8;0xedffa0637559a;0x4d98a05b17062;0xa347799c644da;0x834beed6a4b];[0x1;0xc9515b225e350;0x426106986bcea;0x5216baf77ad1e;0x707c80801c1;0xfe9d69a2b0263;0x1];[0x1;0xd84b81d43adc0;0xfb82f851c3f85;0xf030e12c431e8;0x4e25952079ff7;0x15b00508a4ef3];[0x1;0x348ce057cb8e0;0xc490109abf25c;0x2aca3ddc10c73;0xd82a234b4703d;0xce7e47bd418b]];
 [[0xc51b804085796;0x9d4782f9eca99;0x1d126eedfbbfb;0xb88b5d96c4c79;0x86eba641ea2];[0x1;0x2508db83fa34a;0xc8168acb85193;0xf53dd2f43dbe2;0x13084da34dd2a;0xfd7b9b5a8e4d2;0x1];[0x1;0xc83ea60523adc;0x2184c70797b14;0xfcdba4fa87662;0x88c296edec2a4;0x1495c467332b3];[0x1;0x22c8f54589c1e;0x6ca20007f954f;0x8e2fc8498e052;0x52605d26e9a6b;0xdf6cb65f9fa7]];
 [[0x6c6349cf2f408;0x5b4416b10d418;0xb2d5c05d21457;0xae74d5c8bb90a;0x44a12f4a47cb];[0x1;0xac32b2350a9e8;0x40c4f981a33ea;0xe1d56c05678f7;0x1cc8c98e934a9;0x81cd38d72c79a;0x1];[0x1;0x345c85aa78bc0;0x9b8a66a741ed8;0x299c5018e6ab1;0xd1f6ebc2d4617;0x1462e01bec9c8];[0x0;0x865887b4449e8;0xec841ecb062a3;0x11a205931709a;0x12bd8e136bf26;0x77e98110673e4]];
 [[0xb11befb2eb0ec;0x9d69a5efe1e8;0xbb6f428f5083f;0x6b15bd3cc6594;0x3fa5907ee03c];[0x1;0xa1ce21849de6c;0x1d3b03dad5f6;0x3143b1f392f7d;0xfa3d4bc2fa0f6;0x91492f94907bb;0x1];[0x1;0x4bf363726a170;0x2378b9187ad9;0x2980d47ce2def;0x9a987f3eb5d4;0x187f3b89792f9];[0x0;0x55d5459d02100;0x2dfdd2d5a297d;0x95e5a90c3bd54;0x86196568fd153;0x6dfcd8ea3dd9d]]]
 (V [0xd637963951988;0x63e1b3ce0ce4a;0xce8768178ddac;0xbafef815aaaf2;0x679fce482f65] [0xdf49ac5e433ae;0xd987738f13439;0xd9cfbbe8dff1;0x4735b405bec9f;0x54cf155edd12]) [[0x648d496ffbedc;0x4feb4a5626a66;0x5ee6f7dd2e0fd;0x8a78b6975ada2;0x4cfc60309d3f];[0x1;0x6807762fd0590;0xfe1abba31945e;0x38ee6d5f947dd;0x2f5df2777e38b;0x77df25c7848e1;0x1];[0x1;0x5b9b903acd5f0;0x88f6ffedb0c3b;0x7b143f77d1de6;0x191975560cdf1;0x21812b9cbf3b2];[0x0;0x64aecafe879d8;0x56b4a6ffd29ef;0x8c4905ca761fa;0x7259879ae9b2b;0x8b02281909854]]
 [((V [0xd58af566a0ea9;0x83514b81fb43c;0xc3cc14105b1a4;0x1a40fdbc6731c;0x13d01b4dd01b] [0xa0b6bdf80991a;0xf0ae3d0921704;0xe28043eee4786;0x2b0a9a5b27239;0x3654335b48d6]),[[0x4664c87257e24;0x8ccf8c4c8ad8a;0x51ba97b96931f;0xe4cfa0e577897;0x1f0155b89111];[0x265c350e7120b;0x4a9eab2b8917b;0x4aec97e2ea8cd;0x5973e35a27204;0x1f88d2b937fb];[0x0;0x66cca1d908c40;0xf6e57d1a23635;0xd9e634c9e1d8c;0x480bf7e2f9cfa;0x14d2520d8417];[0x1;0xf11cddee5ac10;0x2886d3d062339;0x11e2f18dcaa97;0x78f6dfc247621;0x1941edd296b57];[0x1;0xc511541b02df0;0x61065131a8222;0xa0e4984273f96;0x6943ae1ac1db;0x1be9cca33673e];[0x0;0xd2cadb78356c0;0x2e5e6db8bff8e;0x256957fc78398;0xf71e3e33e576e;0x2fd32a86f36ee]]);
 ((V [0x849b8de54c17f;0x2876089595c8c;0x7cdaf7fdd4933;0x45c9a54a7ba96;0x2345a54e7d95] [0x6c79c7e1e543a;0x1d616a1771663;0xba437ba423563;0x7c43543de2e0e;0x3be2e7574521]),[[0x11d7fb31fc360;0x5a73e74a8776d;0x88181970ed600;0x43be7ce8e5e75;0x5b99265d5452];[0xd2105fb5382ea;0x55a752ee2334d;0x234d2582e6721;0xcb3899b52c8a4;0x1022f3f530ed];[0x1;0xba6d9dd3d9a9f;0x21c68c288f864;0x648c8d803142c;0x2f7772d6a9d54;0x1d34cd76855c];[0x1;0x42a4fe92f880;0x196bec68e7d79;0x7a2f1488c4349;0xf1712a544c94b;0x1130ffcdd5b5a];[0x1;0x8ccef70935c00;0x463cd51df1534;0x2dafb08676e3b;0xb97cdd3917aeb;0x543f3e09c514];[0x0;0x223122fe64920;0x15c3c45d0d4bd;0x199a5a52803dd;0xabed5a99903be;0xadf3fad6527f9]]);
 ((V [0x67073154deda4;0xd035c5d972a97;0x20e645de1729b;0x9f79bb3574f04;0x50e7dbd46871] [0xc9e8b6ad3fa8b;0x1c55ec625347;0xae5d72c10f6fe;0x4d0834f5957c0;0x5863df0f4049]),[[0xca6a0d3ad4d17;0xff7f987a09bc;0xbfce7ba24f9bc;0xa87ce41fefdb6;0x7e1416e42a1c];[0x3919d7d9ac008;0xff1a6367fe014;0xbeab84b0fb3e8;0xf5d71a29ef635;0x257f47ec8a71];[0x1;0x4bfe53a04de2f;0x43b7642d6826;0x7ea5f92b9111;0x58ae4f79c890d;0x4146538d1a1a];[0x1;0x8818f4fd751d4;0x3c8d4aaec1807;0xd148a2a2d6382;0x5c86782ddc410;0x16b022bc3a406];[0x1;0xf14eaf851861f;0x5837b800490a8;0xbcce09c57818e;0xbc3f9590adfef;0xb2b6bcaa68ea];[0x0;0x654e4c2f75834;0x3eac639fd113c;0x3b56274f95d0d;0xf6717851a381e;0xeeb168f6ed16a]]);
 ((V [0x3f384243bcc33;0xa6c837b3e2eeb;0x89d6c2c1a7f2d;0x7169dc9bacac2;0x7128259ec439] [0x6fe805a4f75ee;0xe8b6a59624231;0x272b293d9b220;0xf2e30cf879bce;0x4f00b831c20f]),[[0x58d6f1a086f1;0x2dd0621f0202a;0xa9a5b14d3d332;0xa4f6dc25daba4;0x5e515ec6dfcf];[0x378d3e8196a41;0x8988cfda7dea6;0x54ec9ff655904;0x530937ca5992e;0x1c2950e18f01];[0x1;0x754025f7fd1f0;0x59c69c7058be6;0xdcd636c69fb0f;0x6ebf8ee4542e2;0x52f2afcaf41];[0x1;0x7394c683e66a;0xcc230f4ac556b;0xa6a94610ff07e;0xaa9fc1d09c75e;0x126b4d45f4a9b];[0x1;0xa7dc02492664f;0x1a56569bad2e9;0xf9e99fb1ee2bb;0xd5ec5e3f3139a;0x1e07003a0d79f];[0x0;0xbc2f848ef7942;0x9feb6d4a96df6;0x44635af0fc90;0xded9808c1c0df;0xac1f052603595]])]
 [[0x685271825b4a6;0x925dc4cc6ed05;0xda31bc28db837;0xf5c50b751bc93;0x34ff7875c8f1];[0xb76f8a285c6d8;0xbf49957e684ec;0xe7676f5910b14;0xa92a613a047bf;0x73234f04ea34];[0x1;0xb5bc3e7bf887;0xabbddededfb54;0xf154b85125b18;0xb3d0269614cdd;0x823daf05f3aa];[0x1;0x85be7e3f2b6d8;0x49e9247f8ea79;0x8e9786ca59af4;0xd592484e0c2b4;0x37167e8e46a92];[0x1;0x20ea51953df1c;0x28133eec72da6;0x7d0d80f084f06;0x45e9adacbb231;0x2292da468ab01];[0x0;0x7797b2c346b06;0xfeffab0aa1fe6;0xdcd576f648b43;0x81eb1d4f5049b;0x62d4d428a0181]].
Definition wit_Test_64_24 : colwit ipt wit := mk_colwit (V [0x4626503e162f;0x5c22f3b2ced5e;0x5d94f30983e96;0xd7c362d7b66c0;0x315944afd287] [0x251834d899e63;0xa578333b1fecf;0xc3aa0a1df2f84;0x40f57e89d8764;0x203c7f63dad8])
 [[0x9c771cd4d53cb;0x19628ee44c7e;0x8be58ccde1bc6;0x40e4bd9806bab;0x4a5ea05da58a];[0x9856dbf451577;0xd81e8756b2715;0xf39b71ac42500;0x90f6d52aca76;0x161d244960d3];[0x1;0x149fec54b6d27;0x7acdca7719bd7;0xcf423f8a379f1;0x32ee640a38f1d;0xeebd21d38ce];[0x1;0x2f1ce612ed982;0xb22d611d3a23a;0x4dbcdd642daa8;0xa6cd61d04f8d1;0x1729a7d16f62d];[0x1;0xec215c4341eb7;0xfb8a04c327b07;0xd777ffee66f18;0x51659dcf04417;0x12c7a155e7346];[0x0;0xd8215e88fe8c7;0x2b85733f998b7;0x1082fea8394be;0x9e9ab8fad7f5b;0x93d8570c95d6c]]
 [[[0x193b3a0f8a44;0x3c1c267a0c4e1;0xbd4f2c267e5dd;0x60f723ab94ac2;0xfc62b7d8ccb];[0x1;0xa3dc8dc6d278c;0xd2b04b03d22d2;0xc73414501b242;0x3cf34685985af;0xf1a46be73cac3;0x1];[0x1;0xabeda5185b0f0;0xd230544aa5ab2;0x6dbe76c370883;0x1ff14ac41ea6b;0x1d0cc8acb8fc7];[0x0;0x96db16191317c;0x2fb92e686f798;0x397e10972adf8;0x778858a6de954;0x14eb53a2b74e4]];
 [[0xdade2a27337fd;0x4bffe2120ccb1;0x77a8664eebf94;0x5d92f90405ac8;0x31de86fff62c];[0x1;0xeb1601ffaf9d1;0xdddf5f3140835;0xcfd576ddc3391;0x230a4a649e7c6;0xa5c41d09e141b;0x1];[0x1;0x68ef3f878d4a7;0xb5ad4edbdd730;0x3b3e7037ff1b2;0xf5fea89d24e43;0x16888319df40b];[0x0;0x3816823111427;0xebec7c5e748a3;0x2b5dcc7a71f43;0x8d5fe7c7daac0;0x5d7421e0067da]];
 [[0xeee1e16a6f496;0x6b76fe7fd5eaf;0x18866173de109;0x1db7a7259c1f;0x573e04e78959];[0x1;0xccaf0fd463422;0x22eccafae8a1;0x3c4417a42a804;0x9a7694f659ef1;0x5bfd8f507c22b;0x1];[0x1;0x4463b5967edc;0x1afc92c95fbe5;0x31e1d45a828bf;0xc768aecef0692;0x128b8e41cb2cd];[0x0;0x5e16657288540;0x5b4395e4352ec;0x1291d78401f08;0x475049c008211;0xa19b26fca31ac]];
 [[0x1af356ecbfadc;0xe8ef60db9beb8;0x5d267997d05c1;0x8bcef6df0fe13;0xd4218aa6049];[0x1;0x1337672a56230;0xd2d1ca2488421;0x6946347857236;0x9d51c25653fba;0xed79a5452c3d7;0x1];[0x1;0x27355d73bb5f0;0xb59da5b8cc6ca;0xa845d2d0f3e09;0x81521f972c0bb;0x1851375d52013];[0x0;0x37bc88b413878;0xa500cb21897a6;0x134de2cff6930;0xd2ed3aae65086;0x866bdcb5e2f0]];
 [[0x32c61c6192697;0xd37436516abf8;0xfabef9321d80e;0x9e330743de9c5;0x80da236b2a0];[0x1;0x13463d0ff3a5;0xa1158f96edf4b;0xa06caeb8cb6b8;0xbb8cbf1a7a5ff;0xfb8933046442a;0x1];[0x1;0x2ad323306211f;0xbbf0dd54cea8a;0x36b0d4ab2bc2e;0xf09fb780f4ce4;0xf9f84a3456d1];[0x0;0xb43c143dadf8a;0xa7e80ce7f6d7d;0x4f7a2c283bffd;0xdadebc09581f5;0x3eb0ea8a2dc6]];
 [[0x2efa7557bdfc6;0x42619f60ed58e;0x5db2e96479d5;0x12d93d7c4ccc6;0x7940d4f71b43];[0x1;0x533dd9adce3f4;0x3e11d6a016db3;0x34ca82f152570;0x1cb9d5fa4cc14;0x149a7ba8436ba;0x1];[0x1;0xa171b3adcf59c;0x4d704fc14d062;0xa0dca2fee2504;0x556b94790a98c;0xad389893c71a];[0x0;0x9a146aab880dc;0xf8a4de0bbc020;0x7de7c55c5c089;0x743ff7c807b36;0xef3cae5a6a345]];
 [[0xd611aeedd1cc3;0x9d3c8873e6798;0xa43ac5f1ff8dd;0xf4ecf64bb088d;0x45a2a258f29c];[0x1;0xabc4eb0b0da2f;0x590fdc8402210;0x332579da53187;0x22bc88b8becb4;0x7f507ad71fe65;0x1];[0x1;0x664cda4902027;0x142b16831d95d;0xc015ece23fd13;0xf8cc879c1274e;0x186de49afa21c];[0x0;0xe2715eb034882;0xd26278c059c;0xaa28e78f6367e;0x8e09e28c5a289;0x8725a740fc113]];
 [[0xf1a02da6aa60b;0x6dce56495e6c3;0x801eec0f4efd5;0x9f9d7472bd2bf;0x7ce946d6a8b0];[0x1;0x8f3720e3e7a50;0x5fe06a6042caa;0x8016e90492a5f;0x6263d63b5aa8f;0x14e545c6a386c;0x1];[0x1;0x2a56cb341e537;0x8450f32d80d1c;0xea0c372138467;0x9dfad63bc117a;0x1521a1e03db66];[0x0;0xd912ba8717d90;0x10485e56cb92c;0x1431850b2ddf3;0x4d62a8dde6262;0xfea4a78137949]];
 [[0x8dd6ea3ea8e16;0x42ed74b814cbf;0xf4493672d1693;0x881f2ea5cdd4f;0x11b7fc7c076a];[0x1;0xc00b9d502ca56;0xdc274f84fc122;0x11d5791dfe0e5;0xc6f9bea0e3104;0xeb66896df6b80;0x1];[0x1;0x7e5217614bcdc;0xc6bc980cf98b7;0xa113c98c4283a;0x374a3dea30787;0x126bae6694165];[0x0;0xdc4c7b150e3c2;0x4127691966cf4;0x9306f71f3393c;0x215324e1e1263;0x206959811d8c9]];
 [[0xe9ad4546817c7;0xb42a71528eda;0x7cbb44fd8306c;0x8e426c8dbcd88;0x7b55e408e1ac];[0x1;0x8212383d0f9f9;0x755052e70e566;0x50785931cb4bc;0xa0e0e0aa234a0;0x1441a47b1995a;0x1];[0x1;0x7f7953a78bf7f;0xab452c775cf54;0x3703567a2b1c9;0x2bde0544b332b;0x10d2324c427f5];[0x0;0x320b6b12ac103;0xec49322396ce8;0xf5c4227716e1e;0x9747ba8c84f75;0xef8fa8dfc7e4f]];
 [[0x118a999549756;0xd77773d4ffed6;0x2fc33c71692d8;0xe5815be834ec0;0x3690d46304b];[0x1;0x5baa8d5138852;0x14c497121eb65;0x136c8eca475c4;0x4dbb859afc9d0;0x39f585dc5b0b;0x2];[0x1;0xaa50fe436e5dc;0x2cfb2dc04d1f5;0x96e89d3a3076;0x8eda7c21ad325;0x17e42ae721336];[0x1;0x22870058977c;0xd3a6de88f5fa6;0xc57c31f102d71;0x4fefe0c64092e;0x9264bf95cc8c]];
 [[0xe927d4dc300c1;0xe8699ca82d2fa;0xca9515fd6a1e3;0xdc1072149eca0;0xda67d7fdeb8];[0x1;0x692daba25156;0x526d108b0e2c4;0x45399289c2372;0x6764d6aa75e7f;0xf0e1203396ec8;0x1];[0x1;0x835f9ec6061af;0xd59f2c3a0455;0x8dfab5332aab1;0x4d8c2e8964306;0xf56f4a93ff58];[0x0;0xa5c07abb65aef;0x1b534e12cd37c;0xd71da294ce362;0x12df97a206049;0x972b2823f346]];
 [[0xb694a6560da0f;0xb63a09ffd0c0d;0x9607526568b49;0x5905ef4ec7d89;0x159f57a8fd91];[0x1;0xbea1571a4cb38;0xffb56a35ae5d;0x3c82ad3a626d4;0x43aadf699634;0xdbaf4a40de046;0x1];[0x1;0x36aa98b11a84f;0x4ff99fba8e350;0x46280475c139;0x880d54151e2c8;0x16bf4784d502e];[0x0;0x4284df48466c3;0xb10a46809c75d;0x3d92d6a4394f;0x34cdf88d43e50;0x1c540deea048d]];
 [[0x288b865a9c0f8;0xb70b8aef9d28c;0xe97324792f4bc;0x91591d876388c;0x22e1e107db6e];[0x1;0x45cbfaf8f120;0x3c73f9da1c6ff;0x2f4e819aed1ba;0x7047a728f54f5;0xc89d49ec04613;0x1];[0x1;0x407917522dbc0;0x5e4f2d0dc2c6d;0x4fc1396eba62;0x1391b07d4e009;0x205dc6476b63a];[0x0;0xcc54a78581e18;0x917390135f952;0xc8b6c4b85b78a;0xdc7ef9f9fc146;0x3583c1a48825e]];
 [[0x6c9eda668f5c1;0xd5fc67787653f;0xe376a76a9fad;0x79a2b0e04624c;0x22a4c7874e6d];[0x1;0x312ec9316b5a0;0x7cdda6d1ee8f2;0xcc6ae51ec0a97;0x66df13c6ccf97;0xc04081de1d161;0x1];[0x1;0xf8006e54dd7af;0xa5b8d25738ccb;0x41b4c96e00088;0x2c146ff4ba689;0x1b34bb6a17dc4];[0x0;0x5d0088ad7801f;0x5d728118d7fe5;0x62ac074be71d7;0x95efb7e2eb1cf;0x38443db3aceda]]]
 (V [0x320aa861f1b58;0x6450e4b1d2805;0x9e59b2cafe656;0xbf2128b0ffa59;0x38e625db7d97] [0xe2cb21d707134;0x40b850b36368;0x47b4e123f5b8d;0x7a3ee47e80d5;0x42aeb20ccfea]) [[0xe66022cc53bae;0x4117965feabac;0xfda791ee3efbe;0x9b4454d03663;0x64a029d5a324];[0x1;0x21bb457c2aa84;0x20d27f8ffa69b;0x73db36a979b75;0xf843a7edd191a;0x3ebd40ce4be6e;0x1];[0x1;0xd54b39b9fae7c;0xb1bb116c678fa;0x20e7e3a16be7d;0xabf40e03468ee;0xf93c86b8858d];[0x0;0xab4d894c0433a;0x13c4d0b1c4322;0xf6f130cd70569;0x34416f40932b7;0xc3c0e848b43f0]]
 [((V [0x1849f99e9cbae;0x577d99e2eda30;0x18f03e0da0762;0x1830bf69a3e16;0x58db85b92ada] [0xf1634e60c9f5c;0xa403d6c237464;0x4344014152883;0x688c2141ca048;0x4fabc5d117ad]),[[0xd74f898d4bc26;0x7b9e3fd0e47fc;0x343fa599204d9;0x8004a5598924f;0x28555008ab16];[0xb58c46b324171;0xfa8db91a7e282;0x7388150650b98;0x520071a9851dc;0x440601a76cb8];[0x1;0x6d95fd7f9bdc0;0xf9495e217932d;0x815cf1ecdbf85;0x26710791a8438;0x6ec1045eb38e];[0x1;0x638dfe764f990;0xab6e0f8d3cf06;0x42387568ad491;0x9c1dd4ca577b;0x26e1df73caab3];[0x1;0xb90462eeec51c;0xd8bbda28ce60c;0xb8a30ec7bd718;0xc8ecc8fc4726;0x1889a17fe6397];[0x0;0x737c01f87bce2;0x617fdf6fcb8cb;0x11d097d235f00;0xdffbb9d27182f;0x40438667fc965]]);
 ((V [0xae9d242cd6039;0x4675ec17e57b1;0x80180d6814920;0x775b168717664;0x3daea100d8dd] [0x71610c9adde7d;0x7baef0fe6d9fe;0xca2d9a58d4c60;0x393e82dfe8c9c;0x29c68a3f26a]),[[0x9210a9ad60416;0x4fc920b07bc04;0x281d16b2ebcac;0x18d841e88f918;0x3955b1959550];[0x5463070fc7bbc;0x97279043b9a34;0xd40a5a1e069b3;0x6c350a08f7006;0x220844966db0];[0x1;0x1049377fee7c;0x1008e5e34f8b6;0xef90c97af8180;0x7bf11f05e102e;0x66138d21f22];[0x1;0x69c2adf8a6330;0x674152efc9e84;0xb36fb0fcdbdb8;0x375c2f2cc3769;0x184d1f2245a7a];[0x1;0x413ffa135f4dc;0xdf10d8505859f;0x5af1b87f2e960;0x4b37bf6d7bdea;0x1c51ccd5e531d];[0x0;0x6029868243a44;0x5a149c21dd736;0x28d559e43df5d;0x452fc78ed4eb5;0x6cba7b6bbf849]]);
 ((V [0xbae4278adccae;0xd2cee3e85352d;0x7da01a12518e9;0xdaf1c83a7ed1c;0x18509a685abb] [0xf37fccb6b7338;0x603da686faf8a;0xf82b0501129e7;0x9d5558da0ebad;0x7eed121c475]),[[0x229072ead8896;0x36af7610ae369;0xbe70dfb44b57d;0xaa75aca7d2fec;0x5c8a7b5eb62a];[0xc5289647b4bb4;0x2b2392e889894;0xd0718793a4de2;0x87c4db4c959b1;0x4db121c6c005];[0x1;0x8215cd59e4f7f;0x92da782ddf71d;0x69e58c0b652cb;0x3e1bd5cd12f34;0x7da8e3da2c86];[0x1;0x23798fe2940c4;0x6778a9f0c488f;0xd775c2e2bd745;0x796c7ef416c62;0x2ce604df2bbe2];[0x1;0x75bc60b060edc;0x6c3ba5e25fc35;0x1ff153e0d548e;0x2618a31dea6ff;0xe47411a977ef];[0x0;0x4c94b15ff9b68;0xf5a769f3509e4;0xd4a07d05b5ebc;0xf7db0176de186;0xbf3c775cac561]]);
 ((V [0xfdfe233b3d18e;0x3f0732ceb500c;0xea5ffaa198a52;0x63b8eb92a2818;0x717caac19a72] [0x1f3211888f147;0xd549f155b6109;0x4e7c9aa3e2566;0x63123fb0c5b41;0x364dc7d610d]),[[0x84d39cfc263f3;0xb6aa41d62f687;0x77f1a275c0e26;0xf091b68ca296c;0x343d18412f4d];[0xd1f40661c8eb0;0x18709cd092fc1;0x48df6854532c;0xfe41a440fc7d5;0xccf6987ee5];[0x0;0xa85011832d84;0xc830c8ddf69ab;0x359581528554e;0x4fd0c93911fbe;0x3047f77e0ef];[0x1;0x2c090bb69b2b0;0x23b626454a04c;0xc3b42bff58b7c;0xae8e0b083932;0xfe542b0692bf];[0x1;0xbb569585e2a07;0x9eeff575bd06d;0x996f47743ac0d;0x3689f20099926;0x12ee9fe4686ab];[0x0;0x9209b4f2c9fb3;0xbff82922e3f16;0xf0c6179415ab1;0xfa0bf09e03037;0x680d44e9f1535]])]
 [[0x7513c5f9dfd29;0xfec20df837724;0x1bcfec8b42c22;0xb080646eb2b7;0x580e37901399];[0x859516d8a8324;0xe4ebccfce953c;0xfaa2c6ce51b16;0xa097aa7eb800;0x3d51970821ad];[0x1;0x1b8c6dab5c5fc;0x13ee5afeba342;0x8ab226fff536f;0x774aeae4f265b;0x16049726b3c1];[0x1;0xc609d20680ee2;0xaeb948b0266dc;0x755e1441225d6;0xb06625b99d780;0x26b3e1a01d7b8];[0x1;0x994d0da52659f;0xc1d829c227412;0x168700b9a371f;0x8195b8ed07287;0x1f12608ccd9b0];[0x0;0x27847df504e60;0x8ac67d4d25609;0xc9fcb1e33bfab;0x6d93e82fe3682;0xac7ebd7f300ca]].
Definition wit_Test_64_25 : colwit ipt wit := mk_colwit (V [0x5a3da0b640f14;0xc2941383ce5c3;0x9c45e82876f78;0x11874f90967c7;0x2e3e29bd842c] [0x498f41031b094;0x20ac46e9102c;0xd2f7706fcf4ec;0x504f618bd8ccd;0x51da1446ba6])
 [[0xdf34e522f237c;0x53b1858d7e204;0x75595a0914ead;0x3b4d95f171f00;0x3660ed8e92ca];[0x651f42b14b7f5;0x3f8701916acbf;0x6b05869dbc1e3;0x41daff286b021;0xdf6cd16235f];[0x1;0x5d3142613602f;0x57b08c12c3168;0xfeabc37f79f36;0x3507bdcce1624;0x6e4c408f19c];[0x1;0xff3725d998a90;0xcbc18ac667b7a;0x19b0b61a97b71;0x54412da669876;0x106ad76f356be];[0x1;0xe1eb6ffe24ef0;0xaef76871708bc;0x6004e69b42818;0xf7ff33498be6e;0x114f0192642b6];[0x0;0x95168eb2c1810;0x9024dc80cfd96;0xab89a6b24fd54;0x3ff50504b9b9c;0x645299aebb326]]
 [[[0x67155889acf21;0xc3ac49f9ca3c4;0x6268e92b9124e;0x432bacccdea7e;0x724d0082b38];[0x1;0xfbad2c78d337a;0x4c04bd60a98c3;0xe33092def6928;0x9073a23df99a;0xf694d56d10392;0x1];[0x1;0xdfa62de23f4ef;0x8ad382bbc605d;0x424b9ef58438c;0x70f6fed85b28d;0x15faebbc33307];[0x1;0xb58b13a206b52;0x37c4a97ce79b6;0xdcc22313ec7de;0xf827ae69362ca;0xa20949ea2170]];
 [[0x810cba8104166;0x989fb5be6d2fe;0xe419a3f64b6e5;0xd15ebac1f7795;0x7633656296ff];[0x1;0x16ab248433e6e;0xbe3d95d5f12da;0x31f80d3568b38;0x31904e451ff6;0x11404a08badad;0x1];[0x1;0x87158f5c761c;0xc4e2428ae902a;0x55c320c66a06;0xdcf9db72e3c1b;0x16f7b7e32eede];[0x0;0x30e91112738d4;0x8b2282c21eadb;0x2440dd3d50647;0x34a456ec324c4;0xd510cbd1e685b]];
 [[0x31de9af636a33;0x6c1f4fd5da1bb;0xfaf19978245fb;0x5b4eb3de1e145;0x12e8655bc8b9];[0x1;0x8cdca5ad29e0;0xacb4bfcfc0316;0x8d640ec39dcb1;0xad9239561bab2;0xdb10ad6659e04;0x1];[0x1;0x43f7a3dc8c487;0x6b3880a4eb66b;0x78b30944c4789;0x2d747e737d9f7;0x1b5163f3e425f];[0x0;0x1569b5a24d1ba;0xdb72b9d8e7b18;0x744198a4f830;0x2aff42e2881cf;0x11e99791bf3f5]];
 [[0x6187992fc227a;0x64702111d4fb1;0x71d60b87f58f0;0x6b8885e400e4b;0x71d049efa8d9];[0x1;0xa08846698c72e;0x9978bf00d9b3b;0xe50655b554a34;0xaa07775488a34;0x204090ea92d11;0x1];[0x1;0xaaa579091d09c;0xa1b26a9fd9472;0x70d8320694493;0x67ba69dffd89d;0x81c1292143c1];[0x0;0xc5bce69283680;0xc97f704dc0b0;0x67ef477d5c2e0;0xebaeec8973178;0xdf8056dee57d6]];
 [[0xdfae9ed3788b7;0xe8b1b14d5686a;0xea5d5afd475b1;0xa4ca9593bbdd9;0x70f76972e47b];[0x1;0x453ceccb9179c;0x19654293d7b16;0xbfd77fe8907e8;0x6c03f7254c1ea;0x1e01dcaa8bc8e;0x1];[0x1;0xc2e3f643caf5f;0x922d1f7bb9ceb;0xd7d5a4e70ed59;0x1fb963e4f5ca7;0x98d270d46dbf];[0x0;0xe0fe73fc143a9;0x2a05b190d4262;0xe768207daf63d;0xd74ae5fad8624;0xd43c4f1c37a63]];
 [[0x359c8acc1f0be;0xfa06c9cd498b7;0xce5421f859c10;0xb06648e3494f0;0x46a7233de66d];[0x1;0x54121ca4dbef4;0xa3490f0c9eee2;0x700db5dd8fca3;0xbb3e078a01c0d;0x75f5157c91f63;0x1];[0x1;0x180401ba14fbc;0xb53264399a7e0;0xbc5b8e497a1b5;0x91693abb12062;0x15a7abce7b366];[0x0;0xe5dc06d5b3d8c;0x6176f65f5d799;0x400c62f760c25;0xcb6f838c6c29c;0x7e6110dfe2cd7]];
 [[0x672d8c8b81cf7;0xe374272952f09;0x534a8ece1d570;0x4926e53f28c95;0x6246c23fd7e1];[0x1;0xacd647faaadab;0x469d6281683de;0x77aa86fdfd1a7;0x38f67e87ea838;0x3e082e6b4f93c;0x1];[0x1;0xdd63c0201d3df;0xb5f70e756895b;0x8fbc9254e78b2;0x8547b0a7da8e9;0x12292f281811b];[0x0;0x905ad1da98146;0x92235c75d1b60;0x777c36da20ea4;0xc3ef346e5712b;0xbe6a35ae8cd29]];
 [[0x81eb43c32448;0x163040330d216;0x5f8a9c53c3779;0xa43887c5ce0d9;0x2132a7aba5ba];[0x1;0x1ebec52386e20;0x2764abfd404ab;0x5ac9d6fedd6e4;0x4c9f952facecc;0xc8b8e18d8213b;0x1];[0x1;0x124c421e237c0;0xa0034f6b042b7;0xdf9f97a9b32e1;0x3a81a5c4f562d;0x1169cd0fa325f];[0x0;0xdbb90ae935748;0x7f183a259f14d;0xb2fec1e1d43c6;0xc51ed6cfa7f9d;0x399388bb2651b]];
 [[0x5ca77f3b809f8;0x61588815edc06;0x485d8d2cfa041;0x4c2aba43d0b5f;0x1ed304a5b643];[0x1;0xa8bd52aaa0ce0;0x1e454fa2ce8c;0xf9fb8289be7c2;0xa202768a5c396;0xc95222c01c799;0x1];[0x1;0x76a4725a96bc0;0xca2d5d39bac46;0x87daccb68cb50;0xce16761b59ee9;0x13345adb1842f];[0x0;0x5bea43b96a950;0x9da111c08cf4f;0xcf5d892b83908;0xfb4bb5300707;0x29d03752611ef]];
 [[0x4f001b19bd150;0x52692690d5681;0x3ae21e8c528bf;0x6e9579b80eb3b;0x51bc29dbccd1];[0x1;0x73c8099e7fdb0;0x7e37f2ef28390;0x5c305c916581;0x916c724c342ed;0x5b96184226370;0x1];[0x1;0xcbe46e1c1f700;0xfd3e2ebcff263;0x79cee79ab3608;0x19aad9bbf54ab;0x1988ff459118f];[0x0;0x63fce79a3cc60;0xa7bb6f2dc9185;0xba71a4aa99b6c;0x5c407ad45ae7a;0x927cc4e508dc5]];
 [[0xe6342f5659aaa;0x11f7f5a83b79c;0xfba8bcc7f0919;0xf54614bb38cf4;0x31ea1f95f54f];[0x1;0x315b44e0a9694;0x75db2a762c067;0x99b8b84875039;0xdb8e5bb42be68;0xa4290ec7e5d30;0x1];[0x1;0x6da55e2b3fddc;0xbdc01eabb8177;0xc6a1632e8095e;0x859e57011260c;0x169424c835f31];[0x0;0xe91baf5836da8;0x7727a2e5296e3;0x452f598dbf33;0x53422417e2740;0x5daa927f26d3f]];
 [[0xec48b5ee2d859;0x696bd4677ee79;0x652b17b55c82c;0x8b9fbecd1cde6;0x27f5a0d1fc79];[0x1;0x66aaccb640c67;0x60224d68ee5ef;0xfa18bcee82c6d;0x12b010d0b8c2f;0xb9f2843fb4572;0x1];[0x1;0xaca2d33c1f93f;0xb81e3535f7982;0x741843eb755ba;0xea3bda2e506a5;0xb1ffe470b3d5];[0x0;0x589dd8ba6709;0x4ea950516857;0x40391d797b076;0x12e75d3fa75;0x4e15a9b780d72]];
 [[0xabb4db7f3e68c;0xc7c53fc9b3c53;0x4b202ff4a3d3f;0xe3b94978d8718;0x60814b4dfdd2];[0x1;0x4ef6b529fc9b4;0x9debe74c70ae7;0xe7e5d3845e0f5;0xaed03d3d5b950;0x4770504661c5f;0x1];[0x1;0xf0230254dae70;0x8dc2df75b6a4f;0xbb0c9290e02a2;0x54f93067ad477;0x120aa3917c7dc];[0x0;0x45824e5f790c0;0xe8b8790700abf;0xa3d735a48e996;0x8997c61989513;0xbacfcc5abab03]];
 [[0xbd2332b2bc441;0xfffead8707050;0x1fe08dd5ade07;0x93c63a92738b6;0x140f98ddc020];[0x1;0x34acfa6dc6c0;0xc6c8e70e72c1;0x88dfccfd59593;0x43884e6a84a16;0xe160f9707ca05;0x1];[0x1;0x19e0b9ddbaaaf;0xa3635f376c8bf;0x48d512af00c6c;0x1453cd3982180;0x20214d9968f8b];[0x0;0xa9e3888d5c45;0x391e971f917d5;0x1e57921e673b6;0x10c41d7f98730;0x217236112fb6f]];
 [[0x8bd30a4e25714;0xc719b57ab161c;0x2770f9649cf69;0x4a3174f0b58c1;0x5043fdd834c8];[0x1;0xb9bba4e420130;0x8637117b26ef1;0x2d5185bd9b06e;0x7178856fed3df;0x6b513837e14cc;0x1];[0x1;0x93d15e7c96170;0x8cead0c06b5c6;0x5a8f9c0ca9114;0x7ca2e31d57970;0x1d8146c6c6dc1];[0x0;0x70fdc87cd60bc;0x1a484e83c0fee;0xecf30c8b93e52;0xe5d46e680523;0x9fd9412795f1a]]]
 (V [0x3f25d4548eb1;0x71ac30a4fc8fb;0xc41be6b69009c;0xfd08e3e0e4a3;0x6af4f8b1bb99] [0x8e0849288e506;0x92fe0975583e5;0x1c8384ed4cb23;0xd4dec8b42e323;0x5e14626a5946]) [[0x6fd7079cad7cc;0x31bca89d21b0d;0x79cbb7d33f7da;0x6a34545583352;0x4ebd51bff558];[0x1;0x368d4974a1b34;0x5d6c9384199ef;0xf8c67c929b8e5;0x55b2ac75c6c71;0x78b67f820d517;0x1];[0x1;0x60840206be070;0xb87fc85fefa2b;0x5b2a5f3a5baa;0x53aa250ccb1a4;0x20203aa59b849];[0x0;0xdb72e5e3ba874;0x27eaca9129ccf;0x9713919f2f9f7;0x30e107c2b6a7f;0x944ae638c7397]]
 [((V [0xc2e95c68a3e93;0xecc3c3b2a6800;0x171caf009f0e8;0xa220ee0e3b499;0x18aeb4637799] [0x2c81c6fe4f5d6;0xb811c110ea07a;0xf45ceae17c42a;0x5e762504936c3;0x38dfd1eab5f0]),[[0xa61a46e2956a0;0xe6b44ea138172;0x85bfc9b4598f1;0xe5f54dcf977a2;0x708c9274585];[0xaa293301220a7;0x9d4e82988bf6a;0xedf6365646987;0x8ba8e66f698ee;0x35e0320ee5dd];[0x1;0x53608b9d4a6cf;0x1e457582156a0;0x3c766b4fd1517;0xafd9129fe9a56;0x1260d3616438];[0x1;0xfd1a5b0df1880;0x77d7d60416237;0x4ae92a1a3f63f;0x9620db496d6a7;0x238ea0757b46d];[0x1;0xdaf68b5b6dc00;0x62662edf9d2c2;0xf346bfe561c2a;0xcb3b7856cf5e6;0x1dcce54f330f6];[0x1;0x78d74292b32a0;0x1597cfd8f4fe5;0x202977f378f5d;0xe1cfff3056d3d;0x4140fd2e0633]]);
 ((V [0xa749091e8c45b;0x1fe2563dddfbb;0x39712807bf363;0x2c33e420b2c57;0x2197933bf7a2] [0x9e29087bfd7ec;0xebb0fc03b4bcd;0x41e1a5325a10b;0xf2b1e9689dabe;0x29b47777aa31]),[[0xa899f5c9dd3ae;0xfbdb11f49a84d;0x309762a642bdc;0xe27baae4ecf89;0xf5ccc3872cf];[0x7ef57fd6c38c5;0x33aa4c412e901;0x179d645aaaf3e;0x1c5e44e6740d6;0x6505f4ac9629];[0x1;0x3ddb0a7beae47;0x717462f0596ea;0x8ec00e5400402;0x6493dd9c90da1;0xc549774072d3];[0x1;0xae91059f99098;0x836f29d93802d;0x172ff009b665e;0x8e2378f65d041;0x3507ccf9f29f1];[0x1;0x2f5fad97f0e7c;0xcac5c1a1538f2;0x8625fc98f7e4d;0x162573db0816a;0xa411f4e1bbc9];[0x0;0x26af8d7c1f07e;0xdd3b93e86ac09;0x398ce0a381103;0x1fb4db1e3bf5c;0x134bc00cd70e2]]);
 ((V [0xf77918246c603;0x4add4d982f438;0xb2918f549f6ad;0xd449f6d52472d;0x6aabb6a77afe] [0xa1c8e51c4746e;0xf47567a795591;0x3089352376e21;0xf668f3f7bc74e;0x44cc01bcd389]),[[0x5910734a34558;0xd32de857c1adb;0x48182e0596dd9;0xaebb971f74b5d;0x4dec6223abd5];[0x9562a155015c9;0xfd6ebac4f8861;0xf77ac30fd9d7d;0x3c7acc19d5903;0x26bd206c5451];[0x1;0xd8ccb2a550b57;0xa2cc93f38c760;0x5ab004c1cf683;0xbea9e607f1eb4;0x44a9656fb21a];[0x1;0xd50f7c6d701c0;0x390e16d34eec4;0xb6cced0698e16;0xbaf80536b6d37;0x1b5a79961e245];[0x1;0x83b983066ddc0;0x76dcaa4677fac;0x3f6b5bd6d08f7;0xf6256584d5fde;0x12c459fa1bb00];[0x0;0xd60a9192d2a98;0xeeebc7a5493cd;0x1842c804adba6;0xdd75a81374132;0x901faa1b86718]]);
 ((V [0xc297af4fffae6;0xa232fa4c0dfec;0xc36fdad90b52e;0x545a3395733fe;0x7e5980f5208f] [0x19cbe82018bc1;0x3c4b3fa83bb1b;0x5071b5292fe57;0x5e9763280731a;0x7fddeb9b8808]),[[0xd7750b8baeec3;0x66fc8430dc9d7;0x5610ff1409526;0xb21e9ef66e977;0x46d72965cf86];[0x14f5bb8702b1e;0x16ee1307ee1e8;0x97eb90fd7541e;0xff733cb5e71c9;0x66d32e01cac];[0x0;0xe52cd32cd5f59;0xfd35f3f55f95e;0x2d903b90ae36e;0xd27b4fd8be918;0x4c0ae720367d];[0x1;0xb115328ff602c;0xe428c900a206f;0x6f0dd54fa3d48;0x1dfbf2611c5e6;0xda68c5842c34];[0x1;0x84fbe3f6e7427;0x92b5af9c6ec2a;0xa03425d578241;0xf49f4aa0ff786;0x2802d1d93b2b5];[0x0;0x3a7c556dc22ea;0x289e999c7d70b;0xaeaab55b147fe;0xea692872744da;0x78d845c85726a]])]
 [[0x53cff62f87dfc;0xfd6f3268d36b;0xe08117ee90426;0xe36e368c461f;0x2085bcd87b49];[0x2c42e439acccc;0xf4fb4f03929a5;0xf5918aa3b037d;0x22ff80c0b3658;0x4de3a67805b1];[0x1;0xade6a0fb0c41c;0x55da923dc59c1;0x737c9797ebfc6;0xba0ec8d7d4ecd;0x1f0ed8779c7a];[0x1;0xbbb25d048a888;0x58e0885c50c8f;0xa85ff23bf2d04;0x6e733241ae6bf;0x2925bbe885787];[0x1;0x6b0f4dc25a2f0;0x694c076800a54;0xd3720ee6d4aa4;0x9dba598e9c7df;0x2990b3ba5d088];[0x0;0xe418cc798abc4;0x325b0e2d93872;0x349e2994cb140;0xc7f8d967ba3d7;0x2badb33979b46]].
Definition wit_Test_64_26 : colwit ipt wit := mk_colwit (V [0xdc8f15b2ca01b;0x319eb12f54a0c;0x8938f65a56f29;0x5c0d4a67b62b2;0x2589be318f1] [0x7d7d76c38842d;0x671f69a3628e0;0x2c5f567dd8e0e;0x8ffcaeb7f5018;0x12b2a5558120])
 [[0x31a778b9ee5f5;0x29971c89985f6;0x8a7c72eec076d;0x5fb741340530e;0x39e3c8e6207e];[0xd3648e880593b;0x7206ad86d3665;0x52181f09badf9;0x51e4edde7e622;0x1dbaf1006efd];[0x1;0x706279fcf35c0;0xb43ba142861d2;0x3d4307b21c5b8;0x2855edc6cabea;0x46536a464af];[0x1;0xa50ea0be559b2;0x6fb5cf25c221f;0xead479af176ec;0xcf17fca7df718;0x177d949a8c0de];[0x1;0xf164f2e5a6d37;0x83b79ceea65db;0x9c4c1199ff09a;0xe66383589b9bd;0x13a54076f9a40];[0x0;0x3524b70b17546;0xf941b193da493;0xd8a9ba92ce3e0;0x71264a25fdcf8;0x6f47447162810]]
 [[[0x3d4eb4db42275;0x1dc195e345024;0x853617743c86a;0x2739c2af9f51a;0x1931a1a53bfc];[0x1;0xc3ff56cf921c;0xb7af9faa2e44b;0x69c75c50c4ed5;0xc4b89554ec4d9;0xd74a39da03c5b;0x1];[0x1;0xa70dfb92cd037;0xde19203d0c6fa;0xe9b5257aad217;0x56db6e5425e03;0x141bebfef4b37];[0x0;0xb2fdab606b732;0xd5969f166c6c;0x3a2351a403315;0x28bdc6bcf18b6;0x27ae311206b73]];
 [[0x4706ff706794;0x127f1d4720b6d;0x2b3a9a3de07a7;0xaf7c9eee20986;0x1d30f1075658];[0x1;0xead973b45013c;0x683b7e4364a91;0x83aa465963260;0xb119844db324b;0xd2eacffe89aa7;0x1];[0x1;0xec4934ac34d70;0x2bad754baeb00;0xf8790aeb37c48;0x3525a4d3e7eaf;0x19625e911989d];[0x0;0xfba3b0bd6849c;0xd2240c53216db;0x85bcce67c3000;0x73adf7841ed3d;0x32a9cfe0e1405]];
 [[0xc2dc990fad608;0xef585d87c3a10;0xbb33841828317;0xa8f77f7ee6753;0x2e87ce4e8615];[0x1;0x380776da0c748;0x235b118a7f598;0xa9608e329043a;0xf07223a703ea4;0xb0a599a7fa2c2;0x1];[0x1;0x5ab0cda9b6bc0;0xb4bafb32cc904;0xb962c4c49dec4;0xba60b4bc025d3;0x1d393eb0e8f60];[0x0;0x39b30a08b4808;0xe096379c6f877;0x5b0b66332a916;0xb984f23fc8dc5;0x5374ccc7405c7]];
 [[0x8f2f82d7e5cd3;0x1a1668311ef1a;0x4fdc7f2afc404;0x47e1e7efa785a;0x30cc071523f4];[0x1;0x24a7da876f96b;0xaf44cb67b213d;0x380de6fa9e0d0;0x34d4824ea3d38;0xa80c262e23f23;0x1];[0x1;0x46bbc4914e8c7;0x247ef9e5aeb82;0x342ebe24fab19;0x62066b0a10fc1;0x1052d33c531ab];[0x0;0x6fd179e7b2835;0x8bc890aa79562;0xb50866a19fb8a;0xa198c32b4b04;0x509e70b1c40b8]];
 [[0x3e166f0ebf45;0xfdc64552929e7;0xcac73c196ce3a;0xb1afe392c53f1;0x4a264790cc4a];[0x1;0x4e01d3a7fd35f;0x55b8554080f;0x2114d096f1d77;0xcff3f5ca1d06e;0x6c5d229bc1f3e;0x1];[0x1;0x8a32b86024717;0xafa5ce4c32b51;0xd0e204f10ed01;0x24c8e96f13cad;0xc54bdbbc1733];[0x0;0xf3a11d94e8177;0x2f10624892a2f;0xaf8a8de11a1d2;0xbebd6a47c7ad6;0x83ba63bdceda0]];
 [[0xc9234703de16c;0x8acdff94e487d;0xb955a670bd8df;0x7d56b706d51b2;0x6b1e1d03527f];[0x1;0x881ee3e449b4c;0xa932ffddc4518;0x8c968a4f49747;0x3df6fe23fd38f;0x3546f04b3cb25;0x1];[0x1;0xc08b50793570;0x9a8f84e2124fc;0x9d229096f29c2;0x8143407a15206;0xd06aca8881dc];[0x0;0x20d056f3da74;0x55b5dcff5f248;0xfbdf7d7edc690;0xd224d8ef0d5b;0xcd2cc25c088da]];
 [[0xff316b154552f;0xb5b47f1c3ae6e;0x6056fc0167004;0xe866c99f76d72;0x5eff7881050];[0x1;0xfe780a19086ed;0xaa93498493879;0xcd7b62fa3ab3c;0x71e65e163497c;0xf94afa47ae686;0x1];[0x1;0x4d935497b8a8f;0x47a557b8feb0e;0x5725749973fe7;0x81a26083b6564;0xf894e05912a2];[0x1;0x2d3c81ebcd26a;0xc116e34849148;0x9297d53340803;0x928ce8c1fec3b;0x2b04bab55a58]];
 [[0x85ff2ff134ea2;0x998c85591f711;0xb644f13a365b8;0x9d345d52d15ce;0x6f13ef91ff46];[0x1;0xc1ccc0c200134;0x5080217fbe293;0x75da8f86d1ca6;0xe9c65c8972acc;0x2ee2779695335;0x1];[0x1;0x5e69f47eec63c;0x987811902697e;0x2ff8724aad362;0xa44e084f171e5;0x60ac2de929e6];[0x0;0xbbc3649211274;0x5b82b2eeee16d;0xff0df7b147066;0x1575bf5657d67;0xe54eccb2bb1b1]];
 [[0xdf4292544506b;0xe50260e0b64aa;0x27899a3f823d;0xf7ba6faaecbc0;0x3e23a1e55f52];[0x1;0xd59bc15a5e8eb;0x212a745e8b5c2;0x3aa47932e7a9d;0x6702044819568;0x92b5ff0db3c10;0x1];[0x1;0x3a16406bd68f7;0xaa1c19bbc8fa9;0x979fccc43c0c2;0xa9ae530219a1f;0xb2d5a58f20b3];[0x0;0x988f0982dc08;0x402a2da7ef18a;0x9f7fc7dce0f6a;0x1d0e9c303ef85;0x7870e2ab17182]];
 [[0x4c928eb40e8bd;0x1a82a30249ca;0xeafc0297a2b6a;0xf2e7ccffe60e3;0x78f78d734ba8];[0x1;0xde0c5239c5ce2;0x778d703c9aca;0x51dd51834b7dd;0x801c92aee1f00;0x17372e9c03863;0x1];[0x1;0x5fc3dd6711127;0xf7d6afe4c49bd;0x4f7ef56c0cf6e;0x8b0069689e019;0x119270df931ec];[0x0;0x8dbb025f37c2d;0xfe23077fb7669;0xc1f6b2d79a045;0x4d4e49da9414b;0xe65005457813e]];
 [[0xd611f29c794c5;0xd36e752f8736d;0x67c7adb547612;0x2d73ab1bf6067;0x6b8c78d0861];[0x1;0x177c48abef4e2;0xc27ec94ad242a;0x6a679f58f5fda;0x98489d908ae7b;0xfa2f7492d67e5;0x1];[0x1;0x7884e6894017;0x28e2083d07420;0x2043232bf139b;0xd06e8f21de95e;0x13d9213f333ad];[0x1;0xf8eff8178544d;0x300985cc3f81c;0x8ca03b7bb0e6b;0x1c3ca9adeb72a;0xa6f2408325fd]];
 [[0xc999cc78d9321;0xcc05f8e07bb58;0xf7f570f9f5e;0x9fbf12d6acadd;0x65e6a0952188];[0x1;0x2bc36aaec4a04;0x290b6f5e96984;0x66e58b790c84f;0xd7b6f5fbbf2c1;0x3408846366908;0x1];[0x1;0x5b679db16ecef;0x98df90303c80;0xf017f5ec0ae6d;0x5d97c551228d;0xe863bbc40bbf];[0x0;0xcf35148e6ed1a;0x500d05a806028;0x6a12c7e96c513;0xdf8b3794c50e1;0xbaa405914e6ad]];
 [[0x2c18eb3aaa946;0x8e0b96842a98d;0xcd2f6b31d009f;0x9e77d07ee2c6b;0x796a0f236e6b];[0x1;0x643ca8b08b082;0x1fbfb80169ae8;0xb4d9333a307ca;0xb6ad9d6d80210;0x18fddbdca3bb8;0x1];[0x1;0x66d67bfc9639c;0x5912a12f16909;0xbe6752127d1a7;0xfa7a03195647e;0xcd586edb9a6c];[0x0;0x4b1779a451e;0x266b809d76501;0xde26652dd1bc1;0xe6370b4678888;0xeaf2248de26fe]];
 [[0x495439bc87e20;0xa7aaeac6b00a2;0xb2900e6c37242;0x435a8e1993ca4;0x58b4c3a0140e];[0x1;0x8974898558ae0;0x7131284d20145;0xda19b59813915;0xdd4d3302bbf02;0x4ed3b789b555a;0x1];[0x1;0xb3a8859b13c00;0xa93f75be1c496;0xd9a4e2d2fbce8;0xbc7ddfe7d64c4;0x38a86d91b0bc];[0x0;0xde92de1075120;0x166730c1c8d5d;0x4bb457ea3b63c;0xbe36bb9d73e29;0xa91d739f9775f]];
 [[0xf1dd4bbf9b7b5;0xea3bbc07918ea;0x209cbc3b13d03;0x2f7695816b4ea;0x120e2086baf6];[0x1;0xb87cc4bc4df5b;0xc051078932072;0xd55fc787231e1;0x9127d0f439b0e;0xec7f1dc8d53d3;0x1];[0x1;0xa32e1ae2abb7;0x89c8bb9d3ed6a;0x5fa2baef99fae;0xaeeddbb52be90;0x4801a0f8d701];[0x0;0xb687e5e640eb6;0xed1e4113f3ea6;0x418bb6c86738c;0x7bb26fbf372ee;0x1533ac660eda7]]]
 (V [0xdc8f15b2ca01b;0x319eb12f54a0c;0x8938f65a56f29;0x5c0d4a67b62b2;0x2589be318f1] [0x7d7d76c38842d;0x671f69a3628e0;0x2c5f567dd8e0e;0x8ffcaeb7f5018;0x12b2a5558120]) []
 []
 [].
Definition wit_Test_64 : list (colwit ipt wit) := [wit_Test_64_0; wit_Test_64_1; wit_Test_64_2; wit_Test_64_3; wit_Test_64_4; wit_Test_64_5; wit_Test_64_6; wit_Test_64_7; wit_Test_64_8; wit_Test_64_9; wit_Test_64_10; wit_Test_64_11; wit_Test_64_12; wit_Test_64_13; wit_Test_64_14; wit_Test_64_15; wit_Test_64_16; wit_Test_64_17; wit_Test_64_18; wit_Test_64_19; wit_Test_64_20; wit_Test_64_21; wit_Test_64_22; wit_Test_64_23; wit_Test_64_24; wit_Test_64_25; wit_Test_64_26].
